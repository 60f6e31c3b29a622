(** IEEE 754 binary64 (round to nearest even) as a [Scalar]: the arithmetic of C++
    [double] on the platforms the repository targets, from Flocq.

    All NaNs are identified (payloads are never observable in the modelled code).
    The functions of libm are not specified by IEEE 754 nor by C++: they are the
    fields of an arbitrary record, so a theorem about [FS m] holds for every libm. *)
From Coq Require Import ZArith Bool Reals Lra Lia.
From Flocq Require Import IEEE754.BinarySingleNaN Core.FLX.
From Verif Require Import Base.Scalar.
Local Open Scope Z_scope.

Definition Hprec : Prec_gt_0 53 := eq_refl.
Definition Hmax : Prec_lt_emax 53 1024 := eq_refl.
Notation F64 := (binary_float 53 1024).

(** m * 2^e rounded to binary64. *)
Definition f_of (m e : Z) : F64 := binary_normalize 53 1024 Hprec Hmax mode_NE m e false.

(** The decimal literal m * 10^-d, rounded correctly: quotient with at least 60
    significant bits and a sticky last bit, then rounded once. *)
Definition f_dec (m d : Z) : F64 :=
  let k := Z.max 0 (60 + Z.log2 (10 ^ d)) in
  let a := (Z.abs m * 2 ^ k)%Z in
  let q := a / 10 ^ d in
  let r := a mod 10 ^ d in
  f_of (Z.sgn m * (2 * q + (if r =? 0 then 0 else 1))) (- (k + 1)).

Record libm : Type := mkLibm {
  m_cos : F64 -> F64; m_sin : F64 -> F64; m_log : F64 -> F64;
  m_pow : F64 -> F64 -> F64
}.

(** Arithmetic, comparisons, conversions and sqrt are the IEEE operations;
    cos, sin, log, pow come from [m]. M_PI, M_2_PI and epsilon are the binary64
    constants of <cmath> and <limits>. *)
Definition FS (m : libm) : Scalar := mkScalar F64
  (@Bplus 53 1024 Hprec Hmax mode_NE) (@Bminus 53 1024 Hprec Hmax mode_NE)
  (@Bmult 53 1024 Hprec Hmax mode_NE) (@Bdiv 53 1024 Hprec Hmax mode_NE)
  Bopp Babs Bltb Bleb Beqb (fun z => f_of z 0) f_dec
  (m_cos m) (m_sin m) (@Bsqrt 53 1024 Hprec Hmax mode_NE) (m_log m)
  (m_pow m) (fun x n => m_pow m x (f_of (Z.of_nat n) 0))
  (f_of 884279719003555 (-48)) (f_of 5734161139222659 (-53)) (f_of 1 (-52)).

(** A libm for executable examples that use none of its functions. *)
Definition no_libm : libm := mkLibm (fun x => x) (fun x => x) (fun x => x) (fun x _ => x).
