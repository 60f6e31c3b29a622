(** Model of include/integratorxx/quadratures/radial/*.hpp (paths below are
    relative to include/integratorxx/). *)
From Coq Require Import List Bool Arith ZArith.
From Verif Require Import Base.Outcome Base.Scalar Model.Quadrature Model.Primitive.
Import ListNotations.

Section Radial.
Context {S : Scalar}.
Local Open Scope scalar_scope.

(** The objects deriving from RadialTraits (radial_transform.hpp:10-15), as a sum
    type: the dynamic type is the constructor.
    - becke.hpp:16-29    BeckeRadialTraits(npts, R)
    - mhl.hpp:19-28      MurrayHandyLamingRadialTraits<M>(npts, R)
    - muraknowles.hpp:139-146  MuraKnowlesRadialTraits(npts, R)
    - treutlerahlrichs.hpp:16-39 TreutlerAhlrichsRadialTraits(npts, R, alpha) *)
Inductive rtraits : Type :=
| Becke (n : nat) (R : S)
| MHL (M : nat) (n : nat) (R : S)
| MK (n : nat) (R : S)
| TA (n : nat) (R alpha : S).

(** Dynamic type of a traits object (the classes becke.hpp:16, mhl.hpp:19,
    muraknowles.hpp:139, treutlerahlrichs.hpp:16). *)
Inductive rkind : Set := KBecke | KMHL (M : nat) | KMK | KTA.

(** The dynamic type used by every dynamic_cast (becke.hpp:38, mhl.hpp:37,
    muraknowles.hpp:155, treutlerahlrichs.hpp:48, radial_transform.hpp:18-20). *)
Definition rkind_of (t : rtraits) : rkind :=
  match t with
  | Becke _ _ => KBecke | MHL M _ _ => KMHL M | MK _ _ => KMK | TA _ _ _ => KTA
  end.

(** Success of a dynamic_cast to exactly that type (radial_transform.hpp:18-20; no traits
    class derives from another). *)
Definition rkind_eqb (a b : rkind) : bool :=
  match a, b with
  | KBecke, KBecke | KMK, KMK | KTA, KTA => true
  | KMHL M, KMHL M' => Nat.eqb M M'
  | _, _ => false
  end.

(** becke.hpp:31, mhl.hpp:30, muraknowles.hpp:148, treutlerahlrichs.hpp:41. *)
Definition rt_npts (t : rtraits) : nat :=
  match t with
  | Becke n _ => n | MHL _ n _ => n | MK n _ => n | TA n _ _ => n
  end.

(** [clone()] : becke.hpp:33-35, mhl.hpp:32-34, muraknowles.hpp:150-152,
    treutlerahlrichs.hpp:43-45 : a fresh object copied member by member. *)
Definition rt_clone (t : rtraits) : rtraits :=
  match t with
  | Becke n R => Becke n R
  | MHL M n R => MHL M n R
  | MK n R => MK n R
  | TA n R al => TA n R al
  end.

(** [compare(other)] : becke.hpp:37-44, mhl.hpp:36-43, muraknowles.hpp:154-161,
    treutlerahlrichs.hpp:47-54 : dynamic_cast, then member-wise [==]. *)
Definition rt_compare (a b : rtraits) : bool :=
  match a, b with
  | Becke n R, Becke n' R' => Nat.eqb n n' && (R =? R')
  | MHL M n R, MHL M' n' R' =>
      if Nat.eqb M M' then Nat.eqb n n' && (R =? R') else false
  | MK n R, MK n' R' => Nat.eqb n n' && (R =? R')
  | TA n R al, TA n' R' al' => Nat.eqb n n' && (R =? R') && (al =? al')
  | _, _ => false
  end.

(** radial_transform.hpp:17-20 : radial_traits_cast<T>(traits): reference
    dynamic_cast, std::bad_cast when the dynamic type differs. *)
Definition rt_cast (k : rkind) (t : rtraits) : outcome rtraits :=
  if rkind_eqb k (rkind_of t) then Ok t else Throw ExBadCast.

(** treutlerahlrichs.hpp:24-25 : the constants [a] and [ln_2]. *)
Definition ta_a : S := s1.
(** treutlerahlrichs.hpp:25. *)
Definition ta_ln2 : S := sdec 693147180559945309417232 24.

(** [radial_transform(x)] : becke.hpp:53-55, mhl.hpp:52-54, muraknowles.hpp:164-166,
    treutlerahlrichs.hpp:63-67. *)
Definition rt_transform (t : rtraits) (x : S) : S :=
  match t with
  | Becke _ R => R * (s1 + x) / (s1 - x)
  | MHL M _ R => R * spowi (x / (s1 - x)) M
  | MK _ R => (- R) * slog (s1 - x * x * x)
  | TA _ R alpha =>
      let pow_term := spow (ta_a + x) alpha in
      let log_term := slog ((ta_a + s1) / (s1 - x)) in
      R * pow_term * log_term / ta_ln2
  end.

(** [radial_jacobian(x)] : becke.hpp:64-66, mhl.hpp:63-65, muraknowles.hpp:169-172,
    treutlerahlrichs.hpp:77-81. For MHL the model uses truncated [M - 1]; the
    template is only meaningful for [M >= 1] (only [M = 2] is instantiated). *)
Definition rt_jacobian (t : rtraits) (x : S) : S :=
  match t with
  | Becke _ R => R * s2 / spowi (s1 - x) 2
  | MHL M _ R => R * sofN M * spowi x (Nat.sub M 1) / spowi (s1 - x) (Nat.add M 1)
  | MK _ R => let x2 := x * x in R * sofZ 3 * x2 / (s1 - x2 * x)
  | TA _ R alpha =>
      let pow_term := spow (ta_a + x) alpha in
      let log_term := slog ((ta_a + s1) / (s1 - x)) in
      R * pow_term / ta_ln2 * (alpha * log_term / (ta_a + x) + s1 / (s1 - x))
  end.

(** Base rule of each alias: becke.hpp:87-88 and treutlerahlrichs.hpp:105-108 use
    GaussChebyshev2 (bound_inclusive = false, gausschebyshev2.hpp:60),
    mhl.hpp:89-92 and muraknowles.hpp:177-180 use UniformTrapezoid
    (bound_inclusive = true, uniform.hpp:46). *)
Definition base_inclusive (t : rtraits) : bool :=
  match t with
  | Becke _ _ | TA _ _ _ => false
  | MHL _ _ _ | MK _ _ => true
  end.

(** [base_quad_traits::generate(npts_base)], radial_transform.hpp:77. *)
Definition base_generate (t : rtraits) (n : nat) : outcome (list S * list S) :=
  if base_inclusive t then uniform01_generate n else gc2_generate n.

(** radial_transform.hpp:66-88 : generate(traits). *)
Definition radial_generate (t : rtraits) : outcome (list S * list S) :=
  let npts := rt_npts t in
  let npts_base := if base_inclusive t then Nat.add npts 2 else npts in
  let* (base_x, base_w) := base_generate t npts_base in
  let off := if base_inclusive t then 1%nat else 0%nat in
  for_range 0 npts
    (fun i a =>
       let* xi := vget base_x (Nat.add i off) in
       let* wi := vget base_w (Nat.add i off) in
       store i (rt_transform t xi) (wi * rt_jacobian t xi) a)
    (fresh npts).

End Radial.
Arguments rtraits : clear implicits.
