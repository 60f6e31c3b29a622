(** C58: the stored trapezoid rule on matching ends, and a stored grid. *)
From Coq Require Import ZArith List Bool Reals Lra Lia Psatz.
From Coquelicot Require Import Coquelicot.
From Flocq Require Import IEEE754.BinarySingleNaN.
From Verif Require Import Base.Outcome Base.Scalar Base.RScalar Base.FScalar Model.Quadrature Model.Primitive Model.Radial Model.S2Tables Model.S2
  Model.Composite Model.Factory Model.Grids Model.BoundFloat Spec.QuadSpec Spec.Sums Spec.SphereSpec Spec.RealRules Spec.RadialSpec Spec.SphereReal
  Spec.SphereInt Spec.SpaceSpec Spec.FactorySpec Spec.PolySpec Spec.MomentSpec Spec.FloatSpec Spec.LibmSpec Spec.GridFloatSpec
  Spec.ErrorSpec Spec.BoundFloatSpec Spec.TrapFloatSpec Spec.RadialErrSpec
  Proofs.FloatOps Proofs.ChebFloat Proofs.RadialFloatLib Proofs.GridFloatSum Proofs.MomentFloat Proofs.TrapFloat Proofs.TrapFloatThm Proofs.TrapFloatEx Proofs.EulerMac Proofs.RadialErrGrid Proofs.RadialErrEx.
Import ListNotations.
Local Open Scope R_scope.

Lemma stored_periodic : forall m n (lo up : F64) (q : list F64 * list F64), (2 <= n)%nat -> (Z.of_nat n <= 2 ^ 53)%Z -> plain_bound lo -> plain_bound up ->
  B2R lo < B2R up -> @uniform_generate (FS m) n lo up = Ok q ->
  forall F M K L N, let a := B2R lo in let b := B2R up in let d := drift a b n in
  (1 <= N)%nat -> smooth a b N F M -> (forall t, a <= t <= b -> continuous (F N) t) -> (forall k, (1 <= k < N)%nat -> Nat.odd k = true -> F k a = F k b) ->
  (forall x, a - d <= x <= b + d -> Rabs (F 0%nat x) <= K) -> lipschitz (a - d) (b + d) L (F 0%nat) ->
  Rabs (apply_rule (real_rule q) (F 0%nat) - RInt (F 0%nat) a b) <=
    (b - a) * M * ((b - a) / (2 * INR (n - 1))) ^ N + ((4 * eps * (b - a) + INR n * least) * K + d * (b - a) * L).
Proof.
  intros m n lo up q Hn Hb Pl Pu Hlt Hq F M K L N a b d HN S C E HK HL.
  pose proof (trap_tracks m n lo up q Hn Hb Pl Pu Hlt Hq _ (trap_exact n a b Hn) _ K L HK HL) as T. fold a b in T. fold d in T.
  pose proof (periodic_error n a b _ F M N Hn Hlt (trap_exact n a b Hn) HN S C E) as Q.
  match goal with |- Rabs (?x - ?z) <= _ => match type of T with Rabs (_ - ?y) <= _ => replace (x - z) with ((y - z) + (x - y)) by ring end end.
  eapply Rle_trans; [apply Rabs_triang|]. lra.
Qed.

Definition ex_1 : F64 := f_of 1 0.
Definition ex_t : rtraits (FS rounded_libm) := @Becke (FS rounded_libm) 30 ex_1.

Lemma ex_real : real_traits ex_t = Becke 30 1.
Proof. unfold ex_t, real_traits, ex_1. rewrite (proj2 (f_of_small 1 ltac:(lia))). reflexivity. Qed.

Lemma ex_sane : accurate rounded_libm (/ 2 ^ 53) /\ accurate_pow rounded_libm (/ 2 ^ 53) /\ accurate_log rounded_libm (/ 2 ^ 53) /\ / 2 ^ 53 <= / 2 ^ 50 /\ sane_traits ex_t.
Proof.
  destruct radial_float_ex as (A & B & C & _). repeat (split; [assumption|]). split; [apply Rinv_le_contravar; lra|].
  destruct (f_of_small 1 ltac:(lia)) as (F & E). split; [lia|]. split; [exact F|]. unfold ex_1. rewrite E. split; lra.
Qed.

(** A stored 30-point Becke rule. *)
Lemma ex_stored : forall qf : list F64 * list F64, @radial_generate (FS rounded_libm) ex_t = Ok qf -> Rabs (apply_rule (real_rule qf) ex_f - / 12) <=
   PI ^ 3 * (5 / 2) / (12 * INR 31 ^ 2) + 2 * (radius_error (/ 2 ^ 53) ex_t + radial_weight_error (/ 2 ^ 53) ex_t) * (1000 / 12 + 1000 * (PI ^ 3 * (5 / 2) / (12 * INR 31 ^ 2))).
Proof.
  intros qf H. destruct ex_sane as (A & B & C & D & E). pose proof (ex_f_rated 30) as Q.
  pose proof (rated_scal _ _ _ _ 1000 Q) as Q'. rewrite (Rabs_pos_eq 1000) in Q' by lra.
  apply (stored_rate rounded_libm (/ 2 ^ 53) ex_t qf ex_f (fun r => 1000 * ex_f r)); auto; try (rewrite ex_real; auto).
  - exact ex_tempered.
Qed.

(** A stored grid: 30 radial points, 302 angular points, both pruning schemes. *)
Lemma ex_stored_grid : let R := PI ^ 3 * (5 / 2) / (12 * INR 31 ^ 2) in
  In (RQBecke, rkind_of ex_t) schemes /\ (5 <= rt_npts ex_t)%nat /\ algebraic_order_by_npts LebedevLaikov 302 <> (-1)%Z /\
  (forall sch, List.Forall (fun s => exact_for LebedevLaikov 0 (2 / 10 ^ 13) s /\ weight_max LebedevLaikov s <= 13) (scheme_sizes sch LebedevLaikov 302)) /\
  p3deg_le ex_one 0 /\ INR 0 * point_error (/ 2 ^ 53) ex_t <= / 101 /\
  rated (real_traits ex_t) (fun r => r * r * sphere_int (fun x y z => moment (0, 0, 0) ex_g ex_one (at_radius (0, 0, 0) r (x, y, z)))) (PI / 3) (4 * PI * R) /\
  rated (real_traits ex_t) (fun r => r * r * (p3mag ex_one r * (6 * ex_g r))) (6 / 12) (6 * R) /\
  rated (real_traits ex_t) (fun r => r * r * (p3mag ex_one r * (7 * ex_g r))) (7 / 12) (7 * R).
Proof.
  intro R. rewrite ex_real. destruct (ex_grid 30) as (A & B). split; [cbn; tauto|]. split; [cbn; lia|]. split; [vm_compute; discriminate|].
  split.
  { intro sch.
    assert (K : forall s, In s [26; 50; 194; 302]%Z -> exact_for LebedevLaikov 0 (2 / 10 ^ 13) s /\ weight_max LebedevLaikov s <= 13).
    { intros s [<-|[<-|[<-|[<-|[]]]]]; (split; [split; [vm_compute; discriminate|split; [exact I|split; [vm_compute; discriminate|]]]|]);
        first [apply Rle_refl|cbn [weight_max existsb Z.eqb Pos.eqb orb]; lra]. }
    destruct tent_sizes_ex as (E1 & E2 & _). destruct sch; [| |]; try rewrite E1; try rewrite E2; apply List.Forall_forall; intros s Hs; apply K; cbn in Hs |- *; tauto. }
  split; [intros c a b k [H|[]]; inversion H; lia|]. split; [simpl; lra|].
  split; [exact A|]. split; apply B; lra.
Qed.
