(** crates/qlab-math: interpolation and the tridiagonal solver, generic in the [Value] type. *)
From Coq Require Import ZArith Bool List Arith.
From Verif Require Import Base Value.
Import ListNotations.
Local Open Scope value_scope.
Local Open Scope nat_scope.

(** crates/qlab-math/src/interpolation.rs:12-15  struct Point2D. *)
Record Point2D (V : Type) := mkPoint { p_x : V; p_y : V }.
Arguments mkPoint {V}.
Arguments p_x {V}.
Arguments p_y {V}.

(** crates/qlab-math/src/interpolation.rs:17-20  struct Point2DWithSlope. *)
Record Point2DWithSlope (V : Type) := mkSlope { coordinate : Point2D V; dydx : V }.
Arguments mkSlope {V}.
Arguments coordinate {V}.
Arguments dydx {V}.

(** crates/qlab-math/src/interpolation.rs:22-29  Point2DWithSlope::new. *)
Definition slope_new {V : Type} (x y d : V) : Point2DWithSlope V := mkSlope (mkPoint x y) d.

(** crates/qlab-math/src/interpolation.rs:31-35  X::x for Point2DWithSlope (for Point2D, :37-41, it is
    [p_x]). *)
Definition s_x {V : Type} (p : Point2DWithSlope V) : V := p_x (coordinate p).

(** slice::partition_point, called at crates/qlab-math/src/interpolation.rs:86: the standard library's binary
    search.  Only its value on partitioned slices is documented; the model is one concrete search
    (halving [left, right)) and every theorem about sorted input uses the documented contract alone.
    The fuel is the slice length, which [pp_loop_total] shows to be enough. *)
Fixpoint pp_loop {A} (fuel : nat) (p : A -> bool) (l : list A) (left right : nat) : M nat :=
  if left <? right then
    match fuel with
    | O => OutOfFuel
    | S f =>
        let mid := left + (right - left) / 2 in
        a <- index l mid ;;
        if p a then pp_loop f p l (mid + 1) right else pp_loop f p l left mid
    end
  else Ret left.

(** See [pp_loop]; interpolation.rs:86. *)
Definition partition_point {A} (p : A -> bool) (l : list A) : M nat :=
  pp_loop (length l) p l 0 (length l).

(** Results of the interpolation code (crates/qlab-math/src/interpolation.rs:61, 76). *)
Definition IResult (A : Type) (V : Type) : Type := result A (InterpolationError V).

(** crates/qlab-math/src/interpolation.rs:79-97  find_index_at_left_boundary; [getx] is the [X] trait method
    of the point type. *)
Definition find_index {V : Value} {P : Type} (getx : P -> V) (points : list P) (x : V)
  : M (IResult nat V) :=
  match points with
  | [] => Ret (Err (InsufficientPointsError (length points)))
  | first :: _ =>
      pos <- partition_point (fun point => v_ltb (getx point) x) points ;;
      if (pos =? 0) && v_leb (getx first) x then Ret (Ok 0)
      else if pos =? 0 then Ret (Err (OutOfLowerBound x))
      else if pos =? length points then Ret (Err (OutOfUpperBound x))
      else Ret (Ok (pos - 1))
  end.

(** crates/qlab-math/src/interpolation.rs:43-77  trait Interpolator, as the record of its methods;
    [i_default] is the Default supertrait. *)
Record Interpolator (V : Value) := mkInterpolator {
  i_self : Type;
  i_default : i_self;
  i_try_fit : i_self -> list (V * V) -> M (IResult i_self V);
  i_try_value : i_self -> V -> M (IResult V V)
}.
Arguments i_self {V}.
Arguments i_default {V}.
Arguments i_try_fit {V}.
Arguments i_try_value {V}.

(** ** Linear *)

(** crates/qlab-math/src/interpolation/linear.rs:50-57  Linear::try_fit; the struct is its point list
    (linear.rs:24-26). *)
Definition linear_try_fit {V : Value} (self : list (Point2D V)) (raw_points : list (V * V))
  : M (IResult (list (Point2D V)) V) :=
  Ret (Ok (map (fun xy => mkPoint (fst xy) (snd xy)) raw_points)).

(** crates/qlab-math/src/interpolation/linear.rs:75-82  Linear::try_value. *)
Definition linear_try_value {V : Value} (points : list (Point2D V)) (x : V) : M (IResult V V) :=
  r <- find_index p_x points x ;;
  try_res r (fun pos =>
  p <- index points pos ;;
  q <- index points (pos + 1) ;;
  Ret (Ok (p_y p + (p_y q - p_y p) / (p_x q - p_x p) * (x - p_x p))%V)).

(** crates/qlab-math/src/interpolation/linear.rs:48-83  impl Interpolator for Linear; Default at :23,
    also [Linear::new] at :41-45. *)
Definition Linear (V : Value) : Interpolator V :=
  mkInterpolator V (list (Point2D V)) [] linear_try_fit linear_try_value.

(** ** Four-vectors and 4x4 matrices (nalgebra Vector4, Matrix4, used in spline/hermite.rs:45-62, 93-100 and
    spline/catmull_rom.rs:77-162).  Simplification: products are summed left to right. *)

(** nalgebra Vector4 (hermite.rs:93, catmull_rom.rs:77). *)
Definition vec4 (V : Type) : Type := (V * V * V * V)%type.
(** nalgebra Matrix4 by rows (hermite.rs:45, catmull_rom.rs:83). *)
Definition mat4 (V : Type) : Type := (vec4 V * vec4 V * vec4 V * vec4 V)%type.

(** Inner product of a row and a column (hermite.rs:100, catmull_rom.rs:78). *)
Definition dot4 {V : Value} (a b : vec4 V) : V :=
  let '(a0, a1, a2, a3) := a in
  let '(b0, b1, b2, b3) := b in
  (a0 * b0 + a1 * b1 + a2 * b2 + a3 * b3)%V.

(** Matrix4 * Vector4 (catmull_rom.rs:101, 129, 155). *)
Definition mat_vec {V : Value} (m : mat4 V) (v : vec4 V) : vec4 V :=
  let '(r0, r1, r2, r3) := m in (dot4 r0 v, dot4 r1 v, dot4 r2 v, dot4 r3 v).

(** Row vector * Matrix4 (hermite.rs:100). *)
Definition vec_mat {V : Value} (v : vec4 V) (m : mat4 V) : vec4 V :=
  let '((m00, m01, m02, m03), (m10, m11, m12, m13), (m20, m21, m22, m23), (m30, m31, m32, m33)) := m in
  (dot4 v (m00, m10, m20, m30), dot4 v (m01, m11, m21, m31),
   dot4 v (m02, m12, m22, m32), dot4 v (m03, m13, m23, m33)).

(** Points are accepted while no x is smaller than its predecessor: the loop of hermite.rs:34-44,
    catmull_rom.rs:36-45 and natural_cubic.rs:85-94, started with [temp]. *)
Fixpoint check_order {V : Value} {P : Type} (getx : P -> V) (temp : V) (l : list P) : IResult (list P) V :=
  match l with
  | [] => Ok []
  | p :: t =>
      if v_ltb (getx p) temp then Err PointOrderError
      else match check_order getx (getx p) t with Ok ps => Ok (p :: ps) | Err e => Err e end
  end.

(** ** Hermite *)

(** crates/qlab-math/src/interpolation/spline/hermite.rs:7-10  struct Hermite. *)
Record Hermite (V : Value) := mkHermite { he_points : list (Point2DWithSlope V); he_m : mat4 V }.
Arguments mkHermite {V}.
Arguments he_points {V}.
Arguments he_m {V}.

(** crates/qlab-math/src/interpolation/spline/hermite.rs:33-64  Hermite::try_new. *)
Definition hermite_try_new {V : Value} (raw_points : list (V * V * V)) : M (IResult (Hermite V) V) :=
  first <- index raw_points 0 ;;
  let temp := fst (fst first) in
  match check_order s_x temp (map (fun '(x, y, d) => slope_new x y d) raw_points) with
  | Err e => Ret (Err e)
  | Ok points =>
      c2 <- v_const 2 ;;
      cm2 <- v_const (-2) ;;
      cm3 <- v_const (-3) ;;
      c3 <- v_const 3 ;;
      Ret (Ok (mkHermite points
        ((c2, cm2, v_one, v_one),
         (cm3, c3, cm2, (- v_one)%V),
         (v_zero, v_zero, v_one, v_zero),
         (v_one, v_zero, v_zero, v_zero))))
  end.

(** crates/qlab-math/src/interpolation/spline/hermite.rs:84-101  Hermite::try_value. *)
Definition hermite_try_value {V : Value} (self : Hermite V) (x : V) : M (IResult V V) :=
  r <- find_index s_x (he_points self) x ;;
  try_res r (fun pos =>
  point <- index (he_points self) pos ;;
  next_point <- index (he_points self) (pos + 1) ;;
  let h := (s_x next_point - s_x point)%V in
  let delta := ((x - s_x point) / h)%V in
  let delta2 := (delta * delta)%V in
  let delta3 := (delta2 * delta)%V in
  let d := (delta3, delta2, delta, v_one) in
  let f := (p_y (coordinate point), p_y (coordinate next_point),
            (dydx point * h)%V, (dydx next_point * h)%V) in
  Ret (Ok (dot4 (vec_mat d (he_m self)) f))).

(** ** Catmull-Rom *)

(** crates/qlab-math/src/interpolation/spline/catmull_rom.rs:30-48  CatmullRom::try_fit; the struct is its
    point list (catmull_rom.rs:8-10). *)
Definition catmull_rom_try_fit {V : Value} (self : list (Point2D V)) (raw_points : list (V * V))
  : M (IResult (list (Point2D V)) V) :=
  if length raw_points <? 3 then Ret (Err (InsufficientPointsError (length raw_points)))
  else
    first <- index raw_points 0 ;;
    Ret (check_order p_x (fst first) (map (fun xy => mkPoint (fst xy) (snd xy)) raw_points)).

(** crates/qlab-math/src/interpolation/spline/catmull_rom.rs:68-163  CatmullRom::try_value. *)
Definition catmull_rom_try_value {V : Value} (points : list (Point2D V)) (x : V) : M (IResult V V) :=
  r <- find_index p_x points x ;;
  try_res r (fun pos =>
  point <- index points pos ;;
  next_point <- index points (pos + 1) ;;
  let h := (p_x next_point - p_x point)%V in
  let delta := ((x - p_x point) / h)%V in
  let delta2 := (delta * delta)%V in
  let delta3 := (delta2 * delta)%V in
  let d := (delta3, delta2, delta, v_one) in
  v <-
    (if pos =? 0 then
       next_next_point <- index points (pos + 2) ;;
       let next_h := (p_x next_next_point - p_x next_point)%V in
       let beta := (h / (h + next_h))%V in
       Ret (mat_vec
         ((v_zero, v_one - beta, - v_one, beta),
          (v_zero, - v_one + beta, v_one, - beta),
          (v_zero, - v_one, v_one, v_zero),
          (v_zero, v_one, v_zero, v_zero))%V
         (v_zero, p_y point, p_y next_point, p_y next_next_point))
     else if pos + 2 =? length points then
       prev_point <- index points (pos - 1) ;;
       let prev_h := (p_x next_point - p_x prev_point)%V in
       let alpha := (h / (h + prev_h))%V in
       c2 <- v_const 2 ;;
       cm2 <- v_const (-2) ;;
       Ret (mat_vec
         ((- alpha, v_one, - v_one * alpha, v_zero),
          (c2 * alpha, cm2, c2 - c2 * alpha, v_zero),
          (- alpha, v_zero, alpha, v_zero),
          (v_zero, v_one, v_zero, v_zero))%V
         (p_y prev_point, p_y point, p_y next_point, v_zero))
     else
       prev_point <- index points (pos - 1) ;;
       let prev_h := (p_x next_point - p_x prev_point)%V in
       let alpha := (h / (h + prev_h))%V in
       next_next_point <- index points (pos + 2) ;;
       let next_h := (p_x next_next_point - p_x next_point)%V in
       let beta := (h / (h + next_h))%V in
       c2 <- v_const 2 ;;
       cm2 <- v_const (-2) ;;
       c3 <- v_const 3 ;;
       Ret (mat_vec
         ((- alpha, c2 - beta, cm2 + alpha, beta),
          (c2 * alpha, beta - c3, c3 - c2 * alpha, - beta),
          (- alpha, v_zero, alpha, v_zero),
          (v_zero, v_one, v_zero, v_zero))%V
         (p_y prev_point, p_y point, p_y next_point, p_y next_next_point))) ;;
  Ret (Ok (dot4 d v))).

(** crates/qlab-math/src/interpolation/spline/catmull_rom.rs:12-164  impl Interpolator for CatmullRom;
    Default at :7. *)
Definition CatmullRom (V : Value) : Interpolator V :=
  mkInterpolator V (list (Point2D V)) [] catmull_rom_try_fit catmull_rom_try_value.

(** ** Tridiagonal matrices *)

(** crates/qlab-math/src/linear_algebra/tridiagonal_matrix.rs:9-14  struct TridiagonalMatrix. *)
Record TridiagonalMatrix (V : Type) := mkTri {
  upper_diagonal : list V;
  diagonal : list V;
  lower_diagonal : list V;
  size : nat
}.
Arguments mkTri {V}.
Arguments upper_diagonal {V}.
Arguments diagonal {V}.
Arguments lower_diagonal {V}.
Arguments size {V}.

(** crates/qlab-math/src/linear_algebra/tridiagonal_matrix.rs:17-33  try_new; [None] is its only error. *)
Definition tri_try_new {V : Type} (upper diag lower : list V) : option (TridiagonalMatrix V) :=
  if (length upper =? length lower) && (length upper + 1 =? length diag)
  then Some (mkTri upper diag lower (length diag))
  else None.

(** crates/qlab-math/src/linear_algebra/tridiagonal_matrix.rs:87-95  body of the forward loop. *)
Definition thomas_forward {V : Value} (n : nat) (lower diag upper : list V) (ix : nat)
    (st : list V * list V) : M (list V * list V) :=
  let '(scratch, x) := st in
  scratch' <-
    (if ix <? n - 1 then
       u <- index upper ix ;;
       d <- index diag ix ;;
       l <- index lower (ix - 1) ;;
       s <- index scratch (ix - 1) ;;
       Ret (scratch ++ [(u / (d - l * s))%V])
     else Ret scratch) ;;
  xi <- index x ix ;;
  l <- index lower (ix - 1) ;;
  xp <- index x (ix - 1) ;;
  d <- index diag ix ;;
  s <- index scratch' (ix - 1) ;;
  x' <- update x ix ((xi - l * xp) / (d - l * s))%V ;;
  Ret (scratch', x').

(** crates/qlab-math/src/linear_algebra/tridiagonal_matrix.rs:98-101  body of the backward loop. *)
Definition thomas_backward {V : Value} (scratch : list V) (ix : nat) (x : list V) : M (list V) :=
  s <- index scratch ix ;;
  xn <- index x (ix + 1) ;;
  let temp := (s * xn)%V in
  xi <- index x ix ;;
  update x ix (xi - temp)%V.

(** crates/qlab-math/src/linear_algebra/tridiagonal_matrix.rs:74-103
    solve_with_thomas_algorithm_unchecked.  [matrix_size - 1] and [matrix_size - 2] are usize subtractions;
    they do not underflow when [matrix_size >= 2], which holds at the only call (:37-41). *)
Definition thomas {V : Value} (matrix_size : nat) (lower diag upper b : list V) : M (list V) :=
  u0 <- index upper 0 ;;
  d0 <- index diag 0 ;;
  x0 <- index b 0 ;;
  x1 <- update b 0 (x0 / d0)%V ;;
  st <- for_each (seq 1 (matrix_size - 1)) (thomas_forward matrix_size lower diag upper)
          ([(u0 / d0)%V], x1) ;;
  for_each (rev (seq 0 (matrix_size - 2))) (thomas_backward (fst st)) (snd st).

(** crates/qlab-math/src/linear_algebra/tridiagonal_matrix.rs:36-48  solve. *)
Definition tri_solve {V : Value} (a : TridiagonalMatrix V) (b : list V) : M (list V) :=
  if size a =? 1 then
    b0 <- index b 0 ;;
    d0 <- index (diagonal a) 0 ;;
    Ret [(b0 / d0)%V]
  else thomas (size a) (lower_diagonal a) (diagonal a) (upper_diagonal a) b.

(** crates/qlab-math/src/linear_algebra/tridiagonal_matrix.rs:59-69  body of the product loop. *)
Definition tri_mul_row {V : Value} (a : TridiagonalMatrix V) (rhs : list V) (i : nat) (ret : list V)
  : M (list V) :=
  d <- index (diagonal a) i ;;
  r <- index rhs i ;;
  let temp := (d * r)%V in
  temp <-
    (if i + 1 <? size a then
       u <- index (upper_diagonal a) i ;;
       r' <- index rhs (i + 1) ;;
       Ret (temp + u * r')%V
     else Ret temp) ;;
  temp <-
    (if 0 <? i then
       l <- index (lower_diagonal a) (i - 1) ;;
       r' <- index rhs (i - 1) ;;
       Ret (temp + l * r')%V
     else Ret temp) ;;
  Ret (ret ++ [temp]).

(** crates/qlab-math/src/linear_algebra/tridiagonal_matrix.rs:54-71  Mul::mul. *)
Definition tri_mul {V : Value} (a : TridiagonalMatrix V) (rhs : list V) : M (option (list V)) :=
  if negb (length rhs =? size a) then Ret None
  else
    ret <- for_each (seq 0 (size a)) (tri_mul_row a rhs) [] ;;
    Ret (Some ret).

(** ** Natural cubic *)

(** The seven vectors built by the loop at
    crates/qlab-math/src/interpolation/spline/natural_cubic.rs:40-46. *)
Record NcVectors (V : Type) := mkNc {
  nc_m : list V;
  b_upper : list V; b_diag : list V; b_lower : list V;
  c_upper : list V; c_diag : list V; c_lower : list V
}.
Arguments mkNc {V}.
Arguments nc_m {V}.
Arguments b_upper {V}.
Arguments b_diag {V}.
Arguments b_lower {V}.
Arguments c_upper {V}.
Arguments c_diag {V}.
Arguments c_lower {V}.

(** crates/qlab-math/src/interpolation/spline/natural_cubic.rs:47-67  body of the loop.
    Simplification: the constants 6 and 3 are converted once at the start of each round, also in a round
    that does not use 6. *)
Definition nc_row {V : Value} (raw_points : list (V * V)) (i : nat) (s : NcVectors V) : M (NcVectors V) :=
  let len := length raw_points in
  pi <- index raw_points i ;;
  pp <- index raw_points (i - 1) ;;
  let h := (fst pi - fst pp)%V in
  pn <- index raw_points (i + 1) ;;
  let h_next := (fst pn - fst pi)%V in
  c6 <- v_const 6 ;;
  c3 <- v_const 3 ;;
  Ret (mkNc
    (nc_m s ++
       [if i =? 1 then (snd pp / h)%V
        else if i + 2 =? len then (snd pn / h_next)%V
        else v_zero])
    (if negb (i + 2 =? len) then b_upper s ++ [(h_next / c6)%V] else b_upper s)
    (b_diag s ++ [((h + h_next) / c3)%V])
    (if negb (i =? 1) then b_lower s ++ [(h / c6)%V] else b_lower s)
    (if negb (i + 2 =? len) then c_upper s ++ [v_recip h_next] else c_upper s)
    (c_diag s ++ [(- (v_recip h + v_recip h_next))%V])
    (if negb (i =? 1) then c_lower s ++ [v_recip h] else c_lower s)).

(** nalgebra DVector addition (natural_cubic.rs:76); panics on a length mismatch. *)
Fixpoint dvector_add {V : Value} (a b : list V) : M (list V) :=
  match a, b with
  | [], [] => Ret []
  | x :: a', y :: b' => r <- dvector_add a' b' ;; Ret ((x + y)%V :: r)
  | _, _ => Panic
  end.

(** crates/qlab-math/src/interpolation/spline/natural_cubic.rs:34-98  NaturalCubic::try_fit; the struct is its
    point list (:8-10). *)
Definition natural_cubic_try_fit {V : Value} (self : list (Point2DWithSlope V)) (raw_points : list (V * V))
  : M (IResult (list (Point2DWithSlope V)) V) :=
  let len := length raw_points in
  if len <? 3 then Ret (Err (InsufficientPointsError len))
  else
    s <- for_each (seq 1 (len - 2)) (nc_row raw_points) (mkNc [] [] [] [] [] [] []) ;;
    b <- unwrap (tri_try_new (b_upper s) (b_diag s) (b_lower s)) ;;
    c <- unwrap (tri_try_new (c_upper s) (c_diag s) (c_lower s)) ;;
    let y := map snd (skipn 1 (firstn (len - 1) raw_points)) in
    cy <- tri_mul c y ;;
    cy <- unwrap cy ;;
    rhs <- dvector_add cy (nc_m s) ;;
    y2 <- tri_solve b rhs ;;
    let derivatives := [v_zero] ++ y2 ++ [v_zero] in
    first <- index raw_points 0 ;;
    Ret (check_order s_x (fst first)
           (map (fun '((x, y), d) => slope_new x y d) (combine raw_points derivatives))).

(** crates/qlab-math/src/interpolation/spline/natural_cubic.rs:118-136  NaturalCubic::try_value. *)
Definition natural_cubic_try_value {V : Value} (points : list (Point2DWithSlope V)) (x : V)
  : M (IResult V V) :=
  r <- find_index s_x points x ;;
  try_res r (fun pos =>
  point <- index points pos ;;
  next_point <- index points (pos + 1) ;;
  let h := (s_x next_point - s_x point)%V in
  six <- v_const 6 ;;
  Ret (Ok
    ((s_x next_point - x) * (s_x next_point - x) * (s_x next_point - x) / six / h * dydx point
     + (x - s_x point) * (x - s_x point) * (x - s_x point) / six / h * dydx next_point
     + (s_x next_point - x) * (p_y (coordinate point) / h - h / six * dydx point)
     + (x - s_x point) * (p_y (coordinate next_point) / h - h / six * dydx next_point))%V)).

(** crates/qlab-math/src/interpolation/spline/natural_cubic.rs:12-137  impl Interpolator for NaturalCubic;
    Default at :7. *)
Definition NaturalCubic (V : Value) : Interpolator V :=
  mkInterpolator V (list (Point2DWithSlope V)) [] natural_cubic_try_fit natural_cubic_try_value.
