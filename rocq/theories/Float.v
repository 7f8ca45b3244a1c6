(** * Double precision arithmetic on rationals.

    Python floats and NumPy [float64] scalars are modelled as rationals; every
    double operation of the code is written [fl (exact operation)].  [fl]
    rounds to the nearest 53-bit number, ties to even, with an unbounded
    exponent.  Simplification: no overflow, no subnormals, no NaN, no signed
    zero (damage and time computations of the simulator stay far inside the
    normal range). *)

From Coq Require Import ZArith QArith Qround Qabs Qreduction.
Open Scope Q_scope.

(** 2^e as a rational. *)
Definition pow2 (e : Z) : Q :=
  match e with
  | Zneg p => 1 # (2 ^ p)
  | _ => inject_Z (2 ^ e)
  end.

(** Round to the nearest integer, ties to even. *)
Definition rne (x : Q) : Z :=
  let f := Qfloor x in
  let r := x - inject_Z f in
  match Qcompare r (1 # 2) with
  | Lt => f
  | Gt => (f + 1)%Z
  | Eq => if Z.even f then f else (f + 1)%Z
  end.

(** The binary exponent of a non-zero rational: 2^qexp x <= |x| < 2^(qexp x+1). *)
Definition qexp (x : Q) : Z :=
  let k := (Z.log2 (Z.abs (Qnum x)) - Z.log2 (Zpos (Qden x)))%Z in
  if Qle_bool (pow2 k) (Qabs x) then k else (k - 1)%Z.

(** Rounding to double precision. *)
Definition fl (x : Q) : Q :=
  if Qeq_bool x 0 then 0
  else
    let e := (qexp x - 52)%Z in
    Qred (inject_Z (rne (x * pow2 (- e))) * pow2 e).

Definition fadd (a b : Q) : Q := fl (a + b).
Definition fsub (a b : Q) : Q := fl (a - b).
Definition fmul (a b : Q) : Q := fl (a * b).
Definition fdiv (a b : Q) : Q := fl (a / b).

(** [np.floor] / [np.ceil] of a double: an integer-valued double, exactly. *)
Definition ffloor (a : Q) : Q := inject_Z (Qfloor a).
Definition fceil (a : Q) : Q := inject_Z (Qceiling a).

(** Python [int(x)] of a float: truncation toward zero. *)
Definition qtrunc (x : Q) : Z :=
  if Qle_bool 0 x then Qfloor x else Qceiling x.

(** Comparison of rationals as booleans. *)
Definition qltb (a b : Q) : bool := negb (Qle_bool b a).
Definition qmax (a b : Q) : Q := if Qle_bool a b then b else a.

(** Python float literals are decimals rounded to double. *)
Definition dec (n : Z) (d : positive) : Q := fl (n # d).
