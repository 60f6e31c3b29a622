(** Specification vocabulary for stored rules on the whole real line. *)
From Coq Require Import Reals.
From Coquelicot Require Import Coquelicot.
From Verif Require Import Base.FScalar Spec.FloatSpec.
Local Open Scope R_scope.

(** I is the integral of f from minus infinity to infinity. *)
Definition line_integral (f : R -> R) (I : R) : Prop := is_RInt_gen f (Rbar_locally m_infty) (Rbar_locally p_infty) I.

(** The changes of f fall off like the third power of the distance from the origin. *)
Definition flattening (L : R) (f : R -> R) : Prop := forall r s, Rabs r <= Rabs s -> Rabs (f s - f r) * (1 + Rabs r) ^ 3 <= L * Rabs (s - r).

(** Error of n stored points on the line: e is the distance of the integrand in the variable of [-1,1] from polynomials, KG and LG its bound and
    Lipschitz constant there. *)
Definition line_error (n : nat) (e L KG LG : R) : R :=
  4 * e + ((400 * (INR n + 1) ^ 2 * KG + 32 * LG) * sqrt (INR n + 1) * ulp53 + (18 * (INR n + 1) ^ 2 * KG + 78 * L) * ulp53).
