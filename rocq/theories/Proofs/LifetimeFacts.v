(** Proofs about Model/Lifetime.v. *)
From Coq Require Import List Arith Bool ZArith Lia.
From Verif Require Import Base.Outcome Base.OutcomeFacts Base.Scalar Model.Quadrature Model.S2 Model.Composite Model.Batcher
  Model.Heap Model.Lifetime Spec.HeapSpec Spec.LifetimeSpec Proofs.HeapFacts.
Import ListNotations.
Local Open Scope nat_scope.

Lemma isin_In : forall x l, isin x l = true <-> In x l.
Proof.
  intros x l. unfold isin. rewrite existsb_exists. split.
  - intros (y & Hy & E). apply Nat.eqb_eq in E. subst. auto.
  - intro H. exists x. split; auto. apply Nat.eqb_refl.
Qed.
Lemma isin_false : forall x l, ~ In x l -> isin x l = false.
Proof. intros x l H. destruct (isin x l) eqn:E; auto. apply isin_In in E. contradiction. Qed.
Lemma isin_true : forall x l, In x l -> isin x l = true.
Proof. intros. apply isin_In. auto. Qed.

(** ** Counting *)
Definition count (f : nat -> bool) (n : nat) : nat := length (filter f (seq 0 n)).
Lemma count_S : forall f n, count f (n + 1) = count f n + (if f n then 1 else 0).
Proof.
  intros f n. unfold count. replace (n + 1) with (S n) by lia. rewrite seq_S, filter_app, app_length. simpl.
  destruct (f n); reflexivity.
Qed.
Lemma count_ext : forall f g n, (forall v, v < n -> f v = g v) -> count f n = count g n.
Proof.
  intros f g n H. induction n as [|n IH]; [reflexivity|]. replace (S n) with (n + 1) by lia. rewrite !count_S, IH, H by (auto; intros; apply H; lia). reflexivity.
Qed.
Lemma count_flip : forall f g n v, v < n -> f v = true -> g v = false -> (forall u, u < n -> u <> v -> f u = g u) ->
  count f n = count g n + 1.
Proof.
  intros f g n v. induction n as [|n IH]; intros Hv F G E; [lia|]. replace (S n) with (n + 1) by lia. rewrite !count_S.
  destruct (Nat.eq_dec v n) as [->|Ne].
  - rewrite F, G, (count_ext f g n); [lia|]. intros u Hu. apply E; lia.
  - rewrite (E n) by lia. rewrite IH by (auto; try lia; intros; apply E; lia). lia.
Qed.
Lemma count_0 : forall f n, (forall v, v < n -> f v = false) -> count f n = 0.
Proof. intros f n H. rewrite (count_ext f (fun _ => false) n); auto. clear. induction n; auto. replace (S n) with (n + 1) by lia. rewrite count_S. lia. Qed.

Section Facts.
Context {S : Scalar}.
Variable part : (pw S -> bool) -> list (pw S) -> list (pw S).

Definition hasq (a : nat) (b : batcher) : bool := match b_quad b with Some x => Nat.eqb x a | None => false end.
Lemma hasq_iff : forall a b, hasq a b = true <-> b_quad b = Some a.
Proof.
  intros a b. unfold hasq. destruct (b_quad b) as [x|]; [|split; discriminate].
  split; [intro E; apply Nat.eqb_eq in E; subst; auto|intro E; injection E as ->; apply Nat.eqb_refl].
Qed.
Definition holdsb (d : list nat) (vs : list batcher) (a v : nat) : bool :=
  (negb (isin v d) && match nth_error vs v with Some b => hasq a b | None => false end)%bool.
Definition hbit (h : list nat) (a : nat) : nat := if isin a h then 1 else 0.

Record inv (s : lstate S) (sc : scope) : Prop := mkInv {
  I_vars : sc_vars sc = length (vars (base s));
  I_dead : sc_dead sc = dead s;
  I_held : sc_held sc = held s;
  I_heldb : forall a, In a (held s) -> a < length (heap (base s));
  I_deadb : forall v, In v (dead s) -> v < length (vars (base s));
  I_wf : wf (base s);
  I_len : length (cnt s) = length (heap (base s));
  I_cnt : forall a, a < length (heap (base s)) ->
    vget (cnt s) a = Ok (count (holdsb (dead s) (vars (base s)) a) (length (vars (base s))) + hbit (held s) a);
  I_vec : forall v b, vget (vars (base s)) v = Ok b -> b_vec b < length (vars (base s));
  I_uniq : forall v w b c, vget (vars (base s)) v = Ok b -> vget (vars (base s)) w = Ok c ->
    b_quad b <> None -> b_quad c <> None -> b_vec b = b_vec c -> v = w;
  I_gone : forall x, In x (gone s) <-> exists v b, In v (dead s) /\ vget (vars (base s)) v = Ok b /\ b_quad b <> None /\ b_vec b = x;
  I_own : length (sc_own sc) = length (iters (base s));
  I_iter : forall k it v, vget (iters (base s)) k = Ok it -> nth_error (sc_own sc) k = Some v ->
    exists b, vget (vars (base s)) v = Ok b /\ b_quad b = Some (i_obj it) /\ b_vec b = i_vec it
}.

Lemma inv_init : forall h0, inv (linit h0) (scope0 (length h0)).
Proof.
  intro h0. constructor; cbn; auto; try (intros; destruct v; discriminate).
  - intros a H. apply in_seq in H. lia.
  - tauto.
  - intros v b a H. destruct v; discriminate.
  - apply repeat_length.
  - intros a H. unfold hbit. rewrite isin_true by (apply in_seq; lia). apply vget_Ok.
    rewrite nth_error_repeat by auto. reflexivity.
  - intros x. split; [tauto|]. intros (v & b & [] & _).
  - intros k it v H. destruct k; discriminate.
Qed.

(** What the shape of a step is. *)
Lemma step_shape : forall fuel (s : state S) c s', step part fuel s c = Ok s' ->
  match c with
  | OpNew _ _ | OpNewIdx _ _ _ | OpClone _ => exists b, length (heap s') = length (heap s) + 1 /\
      vars s' = vars s ++ [b] /\ b_quad b = Some (length (heap s)) /\ b_vec b = length (vars s) /\ iters s' = iters s
  | OpNewShared _ a | OpNewSharedIdx _ a _ => exists b, length (heap s') = length (heap s) /\ a < length (heap s) /\
      vars s' = vars s ++ [b] /\ b_quad b = Some a /\ b_vec b = length (vars s) /\ iters s' = iters s
  | OpCopy v => exists b, length (heap s') = length (heap s) /\ vget (vars s) v = Ok b /\
      vars s' = vars s ++ [mkBatcher (b_max b) (b_quad b) (length (vars s)) (b_idx b)] /\ iters s' = iters s
  | OpMove v => exists b, length (heap s') = length (heap s) /\ vget (vars s) v = Ok b /\
      vars s' = upd (vars s) v (moved_from b) ++ [b] /\ iters s' = iters s
  | OpRecenter v _ | OpSetPoint v _ _ | OpSetWeight v _ _ => length (heap s') = length (heap s) /\ vars s' = vars s /\ iters s' = iters s
  | OpBegin v | OpEnd v => exists b it, length (heap s') = length (heap s) /\ vget (vars s) v = Ok b /\ vars s' = vars s /\
      iters s' = iters s ++ [it] /\ b_quad b = Some (i_obj it) /\ b_vec b = i_vec it
  | OpInc k => exists it it', length (heap s') = length (heap s) /\ vget (iters s) k = Ok it /\ vars s' = vars s /\
      iters s' = upd (iters s) k it' /\ i_vec it' = i_vec it /\ i_obj it' = i_obj it
  | OpPostInc k | OpPlus k _ => exists it it' jt, length (heap s') = length (heap s) /\ vget (iters s) k = Ok it /\ vars s' = vars s /\
      iters s' = upd (iters s) k it' ++ [jt] /\ i_vec it' = i_vec it /\ i_obj it' = i_obj it /\ i_vec jt = i_vec it /\ i_obj jt = i_obj it
  end.
Proof.
  assert (ADV : forall (s s1 : state S) k d it, advance s k d = Ok (it, s1) -> exists it0, vget (iters s) k = Ok it0 /\
    heap s1 = heap s /\ vars s1 = vars s /\ iters s1 = upd (iters s) k it /\ i_vec it = i_vec it0 /\ i_obj it = i_obj it0).
  { intros s s1 k d it H. apply advance_Ok in H. destruct H as (it0 & G1 & G2 & G3 & E1 & E2 & E3).
    exists it0. rewrite E1, E2, E3. rewrite G3. repeat split; auto. }
  intros fuel s c s' H.
  destruct c as [maxsz o|maxsz o idx|maxsz a|maxsz a idx|v|v|v|v x|v i p|v i w|v|v|k|k|k d]; simpl in H.
  - apply bind_Ok_inv in H. destruct H as ([o' idx] & _ & H). injection H as <-. cbn. rewrite app_length. eexists. repeat split.
  - injection H as <-. cbn. rewrite app_length. eexists. repeat split.
  - apply bind_Ok_inv in H. destruct H as (o & _ & H). apply bind_Ok_inv in H. destruct H as ([o' idx] & _ & H).
    apply bind_Ok_inv in H. destruct H as (h & HS & H). injection H as <-. apply vset_Ok_inv in HS. destruct HS as [Hl ->].
    cbn. rewrite upd_length. eexists. repeat split; auto.
  - apply bind_Ok_inv in H. destruct H as (o & E & H). injection H as <-. cbn. eexists. repeat split; auto. eapply vget_lt; eauto.
  - apply bind_Ok_inv in H. destruct H as (b & E & H). injection H as <-. cbn. exists b. repeat split; auto.
  - apply bind_Ok_inv in H. destruct H as (b & E & H). apply bind_Ok_inv in H. destruct H as (vs & HS & H). injection H as <-.
    apply vset_Ok_inv in HS. destruct HS as [Hl ->]. cbn. exists b. repeat split; auto.
  - apply bind_Ok_inv in H. destruct H as (b & E & H). apply bind_Ok_inv in H. destruct H as (a & HA & H).
    apply bind_Ok_inv in H. destruct H as (o & HO & H). injection H as <-. cbn. rewrite app_length. eexists. repeat split.
  - do 5 (apply bind_Ok_inv in H; destruct H as (? & ? & H)). injection H as <-.
    match goal with V : vset _ _ _ = Ok _ |- _ => apply vset_Ok_inv in V; destruct V as [? ->] end. cbn. rewrite upd_length. auto.
  - do 5 (apply bind_Ok_inv in H; destruct H as (? & ? & H)). injection H as <-.
    match goal with V : vset (heap _) _ _ = Ok _ |- _ => apply vset_Ok_inv in V; destruct V as [? ->] end. cbn. rewrite upd_length. auto.
  - do 5 (apply bind_Ok_inv in H; destruct H as (? & ? & H)). injection H as <-.
    match goal with V : vset (heap _) _ _ = Ok _ |- _ => apply vset_Ok_inv in V; destruct V as [? ->] end. cbn. rewrite upd_length. auto.
  - apply bind_Ok_inv in H. destruct H as (b & E & H). apply bind_Ok_inv in H. destruct H as (a & HA & H). apply deref_quad_Ok in HA.
    injection H as <-. exists b. eexists. cbn. repeat split; auto.
  - apply bind_Ok_inv in H. destruct H as (b & E & H). apply bind_Ok_inv in H. destruct H as (a & HA & H). apply deref_quad_Ok in HA.
    destruct (b_idx b) eqn:Ei; [discriminate|]. injection H as <-. exists b. eexists. cbn. repeat split; auto.
  - apply bind_Ok_inv in H. destruct H as ([it' s1] & HA & H). injection H as <-. destruct (ADV _ _ _ _ _ HA) as (it & G1 & G2 & G3 & G4 & G5 & G6).
    exists it, it'. rewrite G2. repeat split; auto.
  - apply bind_Ok_inv in H. destruct H as (jt & J & H). apply bind_Ok_inv in H. destruct H as ([it' s1] & HA & H). injection H as <-.
    destruct (ADV _ _ _ _ _ HA) as (it & G1 & G2 & G3 & G4 & G5 & G6). cbn. rewrite J in G1. injection G1 as ->.
    exists it, it', it. rewrite G2, G4. repeat split; auto.
  - apply bind_Ok_inv in H. destruct H as ([it' s1] & HA & H). injection H as <-. destruct (ADV _ _ _ _ _ HA) as (it & G1 & G2 & G3 & G4 & G5 & G6).
    cbn. exists it, it', it'. rewrite G2, G4. repeat split; auto.
Qed.

Lemma count_pos : forall f n v, v < n -> f v = true -> 1 <= count f n.
Proof.
  intros f n v Hv F. rewrite (count_flip f (fun u => if Nat.eqb u v then false else f u) n v Hv F); [lia|rewrite Nat.eqb_refl; auto|].
  intros u _ Hu. destruct (Nat.eqb_spec u v); [contradiction|reflexivity].
Qed.

Lemma holdsb_at : forall d vs a v b, vget vs v = Ok b -> ~ In v d -> holdsb d vs a v = hasq a b.
Proof. intros d vs a v b H D. apply vget_Ok in H. unfold holdsb. rewrite H, (isin_false _ _ D). reflexivity. Qed.
Lemma holdsb_dead : forall d vs a v, In v d -> holdsb d vs a v = false.
Proof. intros d vs a v D. unfold holdsb. rewrite (isin_true _ _ D). reflexivity. Qed.

(** ** The checks *)
Lemma var_ok_alive : forall s sc v, inv s sc -> alive sc v -> var_ok s v = Ok tt.
Proof. intros s sc v I [_ D]. unfold var_ok. rewrite (I_dead s sc I) in D. rewrite isin_false; auto. Qed.

Lemma obj_ok_var : forall s sc v b a, inv s sc -> alive sc v -> vget (vars (base s)) v = Ok b -> b_quad b = Some a -> obj_ok s a = Ok tt.
Proof.
  intros s sc v b a I [Hv D] Hb Q. pose proof (I_wf s sc I v b a Hb Q) as La. unfold obj_ok. rewrite (I_cnt s sc I a La). cbn [bind].
  rewrite (I_dead s sc I) in D. rewrite (I_vars s sc I) in Hv.
  assert (F : holdsb (dead s) (vars (base s)) a v = true) by (rewrite (holdsb_at _ _ _ _ _ Hb D); apply hasq_iff; auto).
  pose proof (count_pos _ _ _ Hv F). destruct (Nat.eqb_spec (count (holdsb (dead s) (vars (base s)) a) (length (vars (base s))) + hbit (held s) a) 0); [lia|auto].
Qed.
Lemma quad_ok_alive : forall s sc v, inv s sc -> alive sc v -> quad_ok s v = Ok tt.
Proof.
  intros s sc v I A. unfold quad_ok. pose proof A as [Hv _]. rewrite (I_vars s sc I) in Hv.
  destruct (vget (vars (base s)) v) as [b| | | |] eqn:E; try (unfold vget in E; apply nth_error_Some in Hv; destruct (nth_error _ _); congruence).
  cbn [bind]. destruct (b_quad b) as [a|] eqn:Q; auto. eapply obj_ok_var; eauto.
Qed.
Lemma obj_ok_held : forall s sc a, inv s sc -> In a (held s) -> obj_ok s a = Ok tt.
Proof.
  intros s sc a I H. pose proof (I_heldb s sc I a H) as La. unfold obj_ok. rewrite (I_cnt s sc I a La). cbn [bind].
  unfold hbit. rewrite (isin_true _ _ H). rewrite Nat.add_1_r. reflexivity.
Qed.
Lemma vec_ok_valid : forall s sc k v, inv s sc -> valid sc k v -> vec_ok s k = Ok tt.
Proof.
  intros s sc k v I [Ho [Hv D]]. assert (Lk : k < length (iters (base s))) by (rewrite <- (I_own s sc I); apply nth_error_Some; congruence).
  apply nth_error_Some in Lk. destruct (nth_error (iters (base s)) k) as [it|] eqn:E; [|congruence].
  apply vget_Ok in E. destruct (I_iter s sc I k it v E Ho) as (b & B1 & B2 & B3). unfold vec_ok. rewrite E. cbn [bind].
  rewrite isin_false; auto. intro G. apply (I_gone s sc I) in G. destruct G as (w & c & W1 & W2 & W3 & W4).
  assert (w = v) by (apply (I_uniq s sc I w v c b); auto; congruence). subst w. rewrite (I_dead s sc I) in D. contradiction.
Qed.
Lemma vec_ok_invalid : forall s sc k, inv s sc -> (forall v, ~ valid sc k v) -> vec_ok s k = UB.
Proof.
  intros s sc k I N. unfold vec_ok. destruct (nth_error (iters (base s)) k) as [it|] eqn:E.
  2:{ unfold vget. rewrite E. reflexivity. }
  assert (Lk : k < length (sc_own sc)) by (rewrite (I_own s sc I); apply nth_error_Some; congruence).
  apply nth_error_Some in Lk. destruct (nth_error (sc_own sc) k) as [v|] eqn:Eo; [|congruence].
  apply vget_Ok in E. destruct (I_iter s sc I k it v E Eo) as (b & B1 & B2 & B3). rewrite E. cbn [bind].
  rewrite isin_true; auto. apply (I_gone s sc I). exists v, b. repeat split; auto; [|congruence].
  destruct (in_dec Nat.eq_dec v (dead s)); auto. exfalso. apply (N v). split; auto. split.
  - rewrite (I_vars s sc I). eapply vget_lt; eauto.
  - rewrite (I_dead s sc I). auto.
Qed.

Lemma incr_Ok : forall n a, a < length n -> exists x, vget n a = Ok x /\ incr n a = Ok (upd n a (x + 1)).
Proof.
  intros n a H. pose proof H as H'. apply nth_error_Some in H. destruct (nth_error n a) as [x|] eqn:E; [|congruence].
  apply vget_Ok in E. exists x. split; auto. unfold incr. rewrite E. cbn [bind]. apply vset_Ok. auto.
Qed.
Lemma decr_Ok : forall n a x, vget n a = Ok x -> 1 <= x -> decr n a = Ok (upd n a (x - 1)).
Proof.
  intros n a x E H. unfold decr. rewrite E. cbn [bind]. destruct x as [|x]; [lia|]. rewrite vset_Ok by (eapply vget_lt; eauto).
  replace (Datatypes.S x - 1) with x by lia. reflexivity.
Qed.
Lemma upd_len : forall {A} (l : list A) i x, length (upd l i x) = length l.
Proof. intros. apply upd_length. Qed.

(** In scope, the lifetime checks succeed. *)
Lemma checks_pass : forall s sc c sc', inv s sc -> scoped sc (LOp c) sc' -> lcheck s c = Ok tt /\ exists n, lcount s c = Ok n.
Proof.
  assert (CNT : forall s sc v, inv s sc -> alive sc v -> exists n, lcount s (OpCopy v) = Ok n).
  { intros s sc v I A. pose proof A as [Hv _]. rewrite (I_vars s sc I) in Hv. apply nth_error_Some in Hv.
    destruct (nth_error (vars (base s)) v) as [b|] eqn:E; [|congruence]. apply vget_Ok in E. cbn. rewrite E. cbn [bind].
    destruct (b_quad b) as [a|] eqn:Q; [|eauto]. destruct (incr_Ok (cnt s) a) as (x & _ & K); [|eauto].
    rewrite (I_len s sc I). eapply (I_wf s sc I); eauto. }
  assert (SH : forall s sc a, inv s sc -> In a (sc_held sc) -> (if isin a (held s) then obj_ok s a else UB) = Ok tt /\ exists n, incr (cnt s) a = Ok n).
  { intros s sc a I H. rewrite (I_held s sc I) in H. rewrite (isin_true _ _ H), (obj_ok_held s sc a I H). split; auto.
    destruct (incr_Ok (cnt s) a) as (x & _ & K); [|eauto]. rewrite (I_len s sc I). apply (I_heldb s sc I). auto. }
  assert (VQ : forall s sc v, inv s sc -> alive sc v -> (let* _ := var_ok s v in quad_ok s v) = Ok tt).
  { intros s sc v I A. rewrite (var_ok_alive s sc v I A). cbn [bind]. apply (quad_ok_alive s sc v I A). }
  intros s sc c sc' I H. inversion H; subst; cbn [lcheck lcount]; clear H;
    try (split; [|eauto]; auto; first [eapply VQ|eapply var_ok_alive|eapply vec_ok_valid]; eassumption).
  - apply (SH s _ a I). assumption.
  - apply (SH s _ a I). assumption.
Qed.

(** ** Invariant *)
Lemma inv_append : forall s n d o h b t cnt', inv s (mkScope n d o h) ->
  vars t = vars (base s) ++ [b] -> b_vec b = length (vars (base s)) -> iters t = iters (base s) -> wf t ->
  length (heap (base s)) <= length (heap t) -> length cnt' = length (heap t) ->
  (forall a, a < length (heap t) -> vget cnt' a = Ok (match vget (cnt s) a with Ok x => x | _ => 0 end + if hasq a b then 1 else 0)) ->
  inv (mkL t cnt' (held s) (dead s) (gone s)) (mkScope (n + 1) d o h).
Proof.
  intros s n d o h b t cnt' I V B IT W LH LC C.
  pose proof (I_vars _ _ I) as EV. pose proof (I_dead _ _ I) as ED. pose proof (I_held _ _ I) as EH. cbn in EV, ED, EH.
  assert (ND : ~ In (length (vars (base s))) (dead s)) by (intro K; apply (I_deadb _ _ I) in K; lia).
  assert (LV : length (vars t) = length (vars (base s)) + 1) by (rewrite V, app_length; reflexivity).
  assert (OLD : forall v c, v < length (vars (base s)) -> (vget (vars t) v = Ok c <-> vget (vars (base s)) v = Ok c)).
  { intros v c L. rewrite V, vget_app1 by auto. tauto. }
  constructor; cbn [base cnt held dead gone sc_vars sc_dead sc_own sc_held]; auto.
  - lia.
  - intros a H. apply (I_heldb _ _ I) in H. lia.
  - intros v H. apply (I_deadb _ _ I) in H. lia.
  - intros a Ha. rewrite (C a Ha). f_equal. rewrite LV, count_S.
    assert (E1 : holdsb (dead s) (vars t) a (length (vars (base s))) = hasq a b).
    { apply holdsb_at; auto. rewrite V. apply vget_app_last. }
    assert (E2 : count (holdsb (dead s) (vars t) a) (length (vars (base s))) = count (holdsb (dead s) (vars (base s)) a) (length (vars (base s)))).
    { apply count_ext. intros v Hv. unfold holdsb. rewrite V, nth_error_app1 by auto. reflexivity. }
    rewrite E1, E2. destruct (le_lt_dec (length (heap (base s))) a) as [G|G].
    + rewrite vget_oob by (rewrite (I_len _ _ I); auto).
      rewrite count_0.
      2:{ intros v Hv. unfold holdsb. destruct (nth_error (vars (base s)) v) as [c|] eqn:E; [|destruct (isin v (dead s)); reflexivity].
          destruct (hasq a c) eqn:Q; [|destruct (isin v (dead s)); reflexivity]. apply hasq_iff in Q. apply vget_Ok in E.
          pose proof (I_wf _ _ I _ _ _ E Q). lia. }
      unfold hbit. rewrite isin_false; [lia|]. intro K. apply (I_heldb _ _ I) in K. lia.
    + rewrite (I_cnt _ _ I a G). lia.
  - intros v c Hv. rewrite V in Hv. apply vget_app_cases in Hv. destruct Hv as [[L Hv]|[-> <-]]; [|lia].
    apply (I_vec _ _ I) in Hv. lia.
  - intros v w c c' Hv Hw Q1 Q2 E. rewrite V in Hv, Hw. apply vget_app_cases in Hv, Hw.
    destruct Hv as [[L1 Hv]|[-> <-]]; destruct Hw as [[L2 Hw]|[-> <-]]; auto.
    + eapply (I_uniq _ _ I); eauto.
    + apply (I_vec _ _ I) in Hv. lia.
    + apply (I_vec _ _ I) in Hw. lia.
  - intros x. rewrite (I_gone _ _ I). split; intros (v & c & D & Hv & R); exists v, c; split; auto; split; auto;
      apply (OLD v c); auto; apply (I_deadb _ _ I); auto.
  - rewrite IT. apply (I_own _ _ I).
  - intros k it v Hk Ho. rewrite IT in Hk. destruct (I_iter _ _ I k it v Hk Ho) as (c & C1 & C2). exists c. split; auto.
    apply OLD; auto. eapply vget_lt; eauto.
Qed.

(** Only objects and iterators change; iterator owners are extended. *)
Lemma inv_iters : forall s n d o h t o', inv s (mkScope n d o h) -> vars t = vars (base s) ->
  length (heap t) = length (heap (base s)) -> length o' = length (iters t) ->
  (forall k it v, vget (iters t) k = Ok it -> nth_error o' k = Some v ->
    exists b, vget (vars (base s)) v = Ok b /\ b_quad b = Some (i_obj it) /\ b_vec b = i_vec it) ->
  inv (mkL t (cnt s) (held s) (dead s) (gone s)) (mkScope n d o' h).
Proof.
  intros s n d o h t o' I V LH LO IT. destruct I. cbn in *.
  constructor; cbn [base cnt held dead gone sc_vars sc_dead sc_own sc_held]; rewrite ?V, ?LH; auto.
  intros v b a Hb Q. rewrite V in Hb. rewrite LH. eauto.
Qed.

Lemma inv_move : forall s n d o h v b t, inv s (mkScope n d o h) -> alive (mkScope n d o h) v -> vget (vars (base s)) v = Ok b ->
  vars t = upd (vars (base s)) v (moved_from b) ++ [b] -> iters t = iters (base s) -> wf t ->
  length (heap t) = length (heap (base s)) ->
  inv (mkL t (cnt s) (held s) (dead s) (gone s)) (mkScope (n + 1) d (map (fun u => if Nat.eqb u v then n else u) o) h).
Proof.
  intros s n d o h v b t I A Hb V IT W LH.
  pose proof (I_vars _ _ I) as EV. pose proof (I_dead _ _ I) as ED. pose proof (I_held _ _ I) as EH. cbn in EV, ED, EH.
  destruct A as [Lv ND]. cbn in Lv, ND. rewrite ED in ND. rewrite EV in Lv.
  assert (NN : ~ In (length (vars (base s))) (dead s)) by (intro K; apply (I_deadb _ _ I) in K; lia).
  assert (LV : length (vars t) = length (vars (base s)) + 1) by (rewrite V, app_length, upd_len; reflexivity).
  assert (LU : length (upd (vars (base s)) v (moved_from b)) = length (vars (base s))) by apply upd_len.
  assert (CASES : forall u c, vget (vars t) u = Ok c -> (u = v /\ c = moved_from b) \/ (u = length (vars (base s)) /\ c = b) \/
      (u <> v /\ u < length (vars (base s)) /\ vget (vars (base s)) u = Ok c)).
  { intros u c Hu. rewrite V in Hu. apply vget_app_cases in Hu. rewrite LU in Hu. destruct Hu as [[L Hu]|[-> <-]]; auto.
    destruct (Nat.eq_dec u v) as [->|Ne].
    - rewrite vget_upd_same in Hu by auto. injection Hu as <-. auto.
    - rewrite vget_upd_other in Hu by auto. auto. }
  assert (OTH : forall u c, u <> v -> vget (vars (base s)) u = Ok c -> vget (vars t) u = Ok c).
  { intros u c Ne Hu. pose proof (vget_lt _ _ _ Hu). rewrite V, vget_app1 by lia. rewrite vget_upd_other; auto. }
  assert (NEW : vget (vars t) (length (vars (base s))) = Ok b).
  { rewrite V. rewrite <- LU. apply vget_app_last. }
  assert (MF : vget (vars t) v = Ok (moved_from b)).
  { rewrite V, vget_app1 by lia. apply vget_upd_same; auto. }
  constructor; cbn [base cnt held dead gone sc_vars sc_dead sc_own sc_held]; auto.
  - lia.
  - intros a H. apply (I_heldb _ _ I) in H. lia.
  - intros u H. apply (I_deadb _ _ I) in H. lia.
  - rewrite LH. apply (I_len _ _ I).
  - intros a Ha. rewrite LH in Ha. rewrite (I_cnt _ _ I a Ha). f_equal. f_equal. rewrite LV, count_S.
    rewrite (holdsb_at _ _ a _ _ NEW NN).
    assert (E : forall u, u < length (vars (base s)) -> u <> v -> holdsb (dead s) (vars (base s)) a u = holdsb (dead s) (vars t) a u).
    { intros u Hu Ne. unfold holdsb. apply nth_error_Some in Hu. destruct (nth_error (vars (base s)) u) as [c|] eqn:E; [|congruence].
      apply vget_Ok in E. apply OTH in E; auto. apply vget_Ok in E. rewrite E. reflexivity. }
    assert (F2 : holdsb (dead s) (vars t) a v = false) by (rewrite (holdsb_at _ _ _ _ _ MF ND); reflexivity).
    pose proof (holdsb_at _ _ a _ _ Hb ND) as F1.
    destruct (hasq a b) eqn:Q.
    + rewrite (count_flip _ (holdsb (dead s) (vars t) a) _ v); auto.
    + rewrite Nat.add_0_r. apply count_ext. intros u Hu. destruct (Nat.eq_dec u v) as [->|Ne]; [congruence|auto].
  - intros u c Hu. apply CASES in Hu. destruct Hu as [[-> ->]|[[-> ->]|(_ & _ & Hu)]].
    + apply (I_vec _ _ I) in Hb. cbn. lia.
    + apply (I_vec _ _ I) in Hb. lia.
    + apply (I_vec _ _ I) in Hu. lia.
  - intros u w c c' Hu Hw Q1 Q2 E. apply CASES in Hu, Hw.
    destruct Hu as [[-> ->]|[[-> ->]|(N1 & L1 & Hu)]]; [cbn in Q1; congruence| |];
      (destruct Hw as [[-> ->]|[[-> ->]|(N2 & L2 & Hw)]]; [cbn in Q2; congruence| |]); auto.
    + exfalso. apply N2. symmetry. eapply (I_uniq _ _ I); eauto.
    + exfalso. apply N1. eapply (I_uniq _ _ I); eauto.
    + eapply (I_uniq _ _ I); eauto.
  - intros x. rewrite (I_gone _ _ I). split; intros (u & c & D & Hu & R).
    + exists u, c. split; auto. split; auto. apply OTH; auto. intros ->. contradiction.
    + apply CASES in Hu. destruct Hu as [[-> ->]|[[-> ->]|(N1 & L1 & Hu)]]; [contradiction|contradiction|]. exists u, c. auto.
  - rewrite map_length, IT. apply (I_own _ _ I).
  - intros k it w Hk Ho. rewrite IT in Hk. rewrite nth_error_map in Ho. destruct (nth_error o k) as [u|] eqn:Eo; [|discriminate].
    injection Ho as <-. destruct (I_iter _ _ I k it u Hk Eo) as (c & C1 & C2). exists c. split; auto.
    destruct (Nat.eqb_spec u v) as [->|Ne]; auto. rewrite Hb in C1. injection C1 as <-. rewrite EV. exact NEW.
Qed.

Lemma inv_destroy : forall s n d o h v b, inv s (mkScope n d o h) -> alive (mkScope n d o h) v -> vget (vars (base s)) v = Ok b ->
  match b_quad b with
  | Some a => exists x, vget (cnt s) a = Ok x /\ 1 <= x /\
      inv (mkL (base s) (upd (cnt s) a (x - 1)) (held s) (v :: dead s) (b_vec b :: gone s)) (mkScope n (v :: d) o h)
  | None => inv (mkL (base s) (cnt s) (held s) (v :: dead s) (gone s)) (mkScope n (v :: d) o h)
  end.
Proof.
  intros s n d o h v b I A Hb.
  pose proof (I_vars _ _ I) as EV. pose proof (I_dead _ _ I) as ED. pose proof (I_held _ _ I) as EH. cbn in EV, ED, EH.
  destruct A as [Lv ND]. cbn in Lv, ND. rewrite ED in ND. rewrite EV in Lv.
  assert (HB : forall a u, u <> v -> holdsb (v :: dead s) (vars (base s)) a u = holdsb (dead s) (vars (base s)) a u).
  { intros a u Ne. unfold holdsb, isin. cbn [existsb]. destruct (Nat.eqb_spec u v); [contradiction|reflexivity]. }
  assert (HV : forall a, holdsb (v :: dead s) (vars (base s)) a v = false) by (intro a; apply holdsb_dead; left; auto).
  assert (CB : forall a, count (holdsb (dead s) (vars (base s)) a) (length (vars (base s))) =
     count (holdsb (v :: dead s) (vars (base s)) a) (length (vars (base s))) + if hasq a b then 1 else 0).
  { intro a. pose proof (holdsb_at _ _ a _ _ Hb ND) as F1. destruct (hasq a b) eqn:Q.
    - apply (count_flip _ _ _ v); auto. intros u _ Ne. symmetry. auto.
    - rewrite Nat.add_0_r. apply count_ext. intros u Hu. destruct (Nat.eq_dec u v) as [->|Ne]; [rewrite HV; auto|symmetry; auto]. }
  assert (DB : forall u, In u (v :: dead s) -> u < length (vars (base s))).
  { intros u [<-|K]; auto. apply (I_deadb _ _ I); auto. }
  destruct (b_quad b) as [a|] eqn:Q.
  - pose proof (I_wf _ _ I _ _ _ Hb Q) as La. pose proof (I_cnt _ _ I a La) as EC. eexists. split; [exact EC|].
    assert (HQ : hasq a b = true) by (apply hasq_iff; auto).
    pose proof (CB a) as CBa. rewrite HQ in CBa. split; [lia|].
    constructor; cbn [base cnt held dead gone sc_vars sc_dead sc_own sc_held]; auto.
    + congruence.
    + apply (I_heldb _ _ I).
    + apply (I_wf _ _ I).
    + rewrite upd_len. apply (I_len _ _ I).
    + intros a' Ha'. destruct (Nat.eq_dec a' a) as [->|Ne].
      * rewrite vget_upd_same by (rewrite (I_len _ _ I); auto). f_equal. lia.
      * rewrite vget_upd_other by (auto; rewrite (I_len _ _ I); auto). rewrite (I_cnt _ _ I a' Ha'), (CB a'). f_equal.
        destruct (hasq a' b) eqn:Q'; [apply hasq_iff in Q'; congruence|lia].
    + apply (I_vec _ _ I).
    + apply (I_uniq _ _ I).
    + intros x. cbn [In]. rewrite (I_gone _ _ I). split.
      * intros [<-|(u & c & D & R)]; [exists v, b; repeat split; auto; congruence|exists u, c; auto].
      * intros (u & c & [<-|D] & Hu & R1 & R2); [left|right; exists u, c; auto]. rewrite Hb in Hu. injection Hu as <-. auto.
    + apply (I_own _ _ I).
    + apply (I_iter _ _ I).
  - constructor; cbn [base cnt held dead gone sc_vars sc_dead sc_own sc_held]; auto.
    + congruence.
    + apply (I_heldb _ _ I).
    + apply (I_wf _ _ I).
    + apply (I_len _ _ I).
    + intros a' Ha'. rewrite (I_cnt _ _ I a' Ha'), (CB a'). f_equal. unfold hasq. rewrite Q. lia.
    + apply (I_vec _ _ I).
    + apply (I_uniq _ _ I).
    + intros x. rewrite (I_gone _ _ I). split.
      * intros (u & c & D & R). exists u, c. split; auto. right; auto.
      * intros (u & c & [<-|D] & Hu & R1 & R2); [|exists u, c; auto]. rewrite Hb in Hu. injection Hu as <-. congruence.
    + apply (I_own _ _ I).
    + apply (I_iter _ _ I).
Qed.

Lemma inv_drop : forall s n d o h a, inv s (mkScope n d o h) -> In a h ->
  exists x, vget (cnt s) a = Ok x /\ 1 <= x /\
  inv (mkL (base s) (upd (cnt s) a (x - 1)) (remove Nat.eq_dec a (held s)) (dead s) (gone s)) (mkScope n d o (remove Nat.eq_dec a h)).
Proof.
  intros s n d o h a I H. pose proof (I_held _ _ I) as EH. cbn in EH. subst h.
  pose proof (I_heldb _ _ I a H) as La. pose proof (I_cnt _ _ I a La) as EC. eexists. split; [exact EC|].
  assert (B1 : hbit (held s) a = 1) by (unfold hbit; rewrite (isin_true _ _ H); auto). split; [lia|].
  assert (NR : ~ In a (remove Nat.eq_dec a (held s))) by apply remove_In.
  constructor; cbn [base cnt held dead gone sc_vars sc_dead sc_own sc_held]; auto; try apply I.
  - intros b Hb. apply In_remove_iff in Hb. apply (I_heldb _ _ I). tauto.
  - rewrite upd_len. apply (I_len _ _ I).
  - intros a' Ha'. destruct (Nat.eq_dec a' a) as [->|Ne].
    + rewrite vget_upd_same by (rewrite (I_len _ _ I); auto). f_equal. unfold hbit at 2. rewrite (isin_false _ _ NR). lia.
    + rewrite vget_upd_other by (auto; rewrite (I_len _ _ I); auto). rewrite (I_cnt _ _ I a' Ha'). f_equal. f_equal.
      unfold hbit. destruct (isin a' (held s)) eqn:E1.
      * rewrite isin_true; auto. apply In_remove_iff. apply isin_In in E1. auto.
      * rewrite isin_false; auto. intro K. apply In_remove_iff in K. destruct K as [K _]. apply isin_true in K. congruence.
Qed.

Lemma vget_some : forall {A} (l : list A) i, i < length l -> exists x, vget l i = Ok x.
Proof. intros A l i H. apply nth_error_Some in H. destruct (nth_error l i) as [x|] eqn:E; [|congruence]. exists x. apply vget_Ok. auto. Qed.

Lemma lstep_base : forall fuel s sc c sc', inv s sc -> scoped sc (LOp c) sc' ->
  (let* s' := lstep part fuel s (LOp c) in Ok (base s')) = step part fuel (base s) c.
Proof.
  intros fuel s sc c sc' I H. destruct (checks_pass s sc c sc' I H) as (E1 & n & E2). cbn [lstep]. rewrite E1. cbn [bind].
  destruct (step part fuel (base s) c); cbn [bind]; auto. rewrite E2. reflexivity.
Qed.

Lemma lstep_Ok : forall fuel s c s', lstep part fuel s (LOp c) = Ok s' ->
  exists t n, step part fuel (base s) c = Ok t /\ lcount s c = Ok n /\ s' = mkL t n (held s) (dead s) (gone s).
Proof.
  intros fuel s c s' H. cbn [lstep] in H. apply bind_Ok_inv in H. destruct H as (u & _ & H). apply bind_Ok_inv in H. destruct H as (t & E1 & H).
  apply bind_Ok_inv in H. destruct H as (n & E2 & H). injection H as <-. exists t, n. auto.
Qed.

Lemma cnt_new : forall (l : list nat) b a, b_quad b = Some (length l) -> a < length l + 1 ->
  vget (l ++ [1]) a = Ok (match vget l a with Ok x => x | _ => 0 end + if hasq a b then 1 else 0).
Proof.
  intros l b a Q Ha. unfold hasq. rewrite Q. destruct (Nat.eqb_spec (length l) a) as [<-|Ne].
  - rewrite vget_app_last, vget_oob by lia. reflexivity.
  - rewrite vget_app1 by lia. destruct (vget_some l a) as (x & ->); [lia|]. f_equal. lia.
Qed.
Lemma cnt_incr : forall (l l' : list nat) b a a', b_quad b = Some a -> a < length l -> incr l a = Ok l' -> a' < length l ->
  length l' = length l /\ vget l' a' = Ok (match vget l a' with Ok x => x | _ => 0 end + if hasq a' b then 1 else 0).
Proof.
  intros l l' b a a' Q La E La'. destruct (incr_Ok l a La) as (x & G1 & G2). rewrite G2 in E. injection E as <-. split; [apply upd_len|].
  unfold hasq. rewrite Q. destruct (Nat.eqb_spec a a') as [<-|Ne].
  - rewrite vget_upd_same, G1 by auto. reflexivity.
  - rewrite vget_upd_other by auto. destruct (vget_some l a' La') as (y & ->). f_equal. lia.
Qed.

Lemma app_own : forall (o : list nat) v k w, nth_error (o ++ [v]) k = Some w -> nth_error o k = Some w \/ (k = length o /\ w = v).
Proof.
  intros o v k w H. assert (L : k < length (o ++ [v])) by (apply nth_error_Some; congruence). rewrite app_length in L. simpl in L.
  destruct (Nat.eq_dec k (length o)) as [->|Ne].
  - rewrite nth_error_app2, Nat.sub_diag in H by lia. injection H as <-. auto.
  - rewrite nth_error_app1 in H by lia. auto.
Qed.

(** In-scope operations preserve the invariant. *)
Lemma lstep_inv : forall fuel s sc c sc' s', inv s sc -> scoped sc c sc' -> lstep part fuel s c = Ok s' -> inv s' sc'.
Proof.
  intros fuel s sc c sc' s' I H E.
  assert (NEWOBJ : forall n d o h t b, inv s (mkScope n d o h) -> wf t -> length (heap t) = length (heap (base s)) + 1 ->
    vars t = vars (base s) ++ [b] -> b_quad b = Some (length (heap (base s))) -> b_vec b = length (vars (base s)) -> iters t = iters (base s) ->
    inv (mkL t (cnt s ++ [1]) (held s) (dead s) (gone s)) (mkScope (n + 1) d o h)).
  { intros n d o h t b I' W L V Q B IT. rewrite <- (I_len _ _ I') in Q. apply (inv_append s n d o h b t); auto.
    - lia.
    - rewrite app_length, (I_len _ _ I'), L. reflexivity.
    - intros a Ha. apply cnt_new; auto. rewrite (I_len _ _ I'). lia. }
  assert (ADOPT : forall n d o h t b a l', inv s (mkScope n d o h) -> wf t -> length (heap t) = length (heap (base s)) -> a < length (heap (base s)) ->
    vars t = vars (base s) ++ [b] -> b_quad b = Some a -> b_vec b = length (vars (base s)) -> iters t = iters (base s) -> incr (cnt s) a = Ok l' ->
    inv (mkL t l' (held s) (dead s) (gone s)) (mkScope (n + 1) d o h)).
  { intros n d o h t b a l' I' W L La V Q B IT IE. pose proof (I_len _ _ I') as IL. apply (inv_append s n d o h b t); auto.
    - lia.
    - destruct (cnt_incr (cnt s) l' b a a Q) as (G & _); auto; try lia.
    - intros a' Ha. apply (cnt_incr (cnt s) l' b a a'); auto; lia. }
  assert (WF : forall (b : op S) t, step part fuel (base s) b = Ok t -> wf t).
  { intros b t Es. eapply step_wf; [|exact Es]. apply (I_wf _ _ I). }
  destruct c as [c|v|a].
  - apply lstep_Ok in E. destruct E as (t & l' & Es & Ec & ->). pose proof (step_shape _ _ _ _ Es) as SH. apply WF in Es.
    inversion H; subst; cbn [lcount] in Ec; cbn [lcount] in SH.
    + destruct SH as (b & S1 & S2 & S3 & S4 & S5). injection Ec as <-. eapply NEWOBJ; eauto.
    + destruct SH as (b & S1 & S2 & S3 & S4 & S5). injection Ec as <-. eapply NEWOBJ; eauto.
    + destruct SH as (b & S0 & S1 & S2 & S3 & S4 & S5). eapply ADOPT; eauto.
    + destruct SH as (b & S0 & S1 & S2 & S3 & S4 & S5). eapply ADOPT; eauto.
    + destruct SH as (b & S0 & S1 & S2 & S3). rewrite S1 in Ec. cbn [bind] in Ec.
      destruct (b_quad b) as [a|] eqn:Q.
      * eapply (ADOPT n d o h t _ a l'); eauto. eapply (I_wf _ _ I); eauto.
      * injection Ec as <-. eapply inv_append; eauto; cbn; auto.
        -- lia.
        -- rewrite S0. apply (I_len _ _ I).
        -- intros a Ha. unfold hasq. cbn. destruct (vget_some (cnt s) a) as (x & ->); [rewrite (I_len _ _ I); lia|]. f_equal. lia.
    + destruct SH as (b & S1 & S2 & S3 & S4 & S5). injection Ec as <-. eapply NEWOBJ; eauto.
    + destruct SH as (b & S0 & S1 & S2 & S3). injection Ec as <-. eapply inv_move; eauto.
    + destruct SH as (S0 & S1 & S2). injection Ec as <-. destruct sc' as [n d o h]. eapply inv_iters; eauto; rewrite S2; apply I.
    + destruct SH as (S0 & S1 & S2). injection Ec as <-. destruct sc' as [n d o h]. eapply inv_iters; eauto; rewrite S2; apply I.
    + destruct SH as (S0 & S1 & S2). injection Ec as <-. destruct sc' as [n d o h]. eapply inv_iters; eauto; rewrite S2; apply I.
    + destruct SH as (b & it & S0 & S1 & S2 & S3 & S4 & S5). injection Ec as <-. pose proof (I_own _ _ I) as LO. cbn in LO.
      eapply inv_iters; eauto; rewrite S3.
      * rewrite !app_length, LO. reflexivity.
      * intros k it' w Hk Ho. apply vget_app_cases in Hk. apply app_own in Ho. rewrite LO in Ho.
        destruct Hk as [[L Hk]|[-> <-]]; destruct Ho as [Ho|[L2 ->]]; try lia.
        -- eapply (I_iter _ _ I); eauto.
        -- exfalso. assert (length (iters (base s)) < length o) by (apply nth_error_Some; congruence). lia.
        -- eauto.
    + destruct SH as (b & it & S0 & S1 & S2 & S3 & S4 & S5). injection Ec as <-. pose proof (I_own _ _ I) as LO. cbn in LO.
      eapply inv_iters; eauto; rewrite S3.
      * rewrite !app_length, LO. reflexivity.
      * intros k it' w Hk Ho. apply vget_app_cases in Hk. apply app_own in Ho. rewrite LO in Ho.
        destruct Hk as [[L Hk]|[-> <-]]; destruct Ho as [Ho|[L2 ->]]; try lia.
        -- eapply (I_iter _ _ I); eauto.
        -- exfalso. assert (length (iters (base s)) < length o) by (apply nth_error_Some; congruence). lia.
        -- eauto.
    + destruct SH as (it & it' & S0 & S1 & S2 & S3 & S4 & S5). injection Ec as <-. destruct sc' as [n d o h].
      pose proof (vget_lt _ _ _ S1) as Lk.
      eapply inv_iters; eauto; rewrite S3.
      * rewrite upd_len. apply (I_own _ _ I).
      * intros j jt w Hj Ho. destruct (Nat.eq_dec j k) as [->|Ne].
        -- rewrite vget_upd_same in Hj by auto. injection Hj as <-. rewrite S4, S5. eapply (I_iter _ _ I); eauto.
        -- rewrite vget_upd_other in Hj by auto. eapply (I_iter _ _ I); eauto.
    + destruct SH as (it & it' & jt & S0 & S1 & S2 & S3 & S4 & S5 & S6 & S7). injection Ec as <-.
      pose proof (vget_lt _ _ _ S1) as Lk. pose proof (I_own _ _ I) as LO. cbn in LO.
      match goal with V : valid _ k v |- _ => destruct V as [OV _]; cbn in OV end.
      eapply inv_iters; eauto; rewrite S3.
      * rewrite !app_length, upd_len, LO. reflexivity.
      * intros j jt' w Hj Ho. apply vget_app_cases in Hj. apply app_own in Ho. rewrite upd_len in Hj. rewrite LO in Ho.
        destruct Hj as [[L Hj]|[-> <-]]; destruct Ho as [Ho|[L2 ->]]; try lia.
        -- destruct (Nat.eq_dec j k) as [->|Ne].
           ++ rewrite vget_upd_same in Hj by auto. injection Hj as <-. rewrite S4, S5. eapply (I_iter _ _ I); eauto.
           ++ rewrite vget_upd_other in Hj by auto. eapply (I_iter _ _ I); eauto.
        -- exfalso. assert (length (iters (base s)) < length o) by (apply nth_error_Some; congruence). lia.
        -- rewrite S6, S7. eapply (I_iter _ _ I); eauto.
    + destruct SH as (it & it' & jt & S0 & S1 & S2 & S3 & S4 & S5 & S6 & S7). injection Ec as <-.
      pose proof (vget_lt _ _ _ S1) as Lk. pose proof (I_own _ _ I) as LO. cbn in LO.
      match goal with V : valid _ k v |- _ => destruct V as [OV _]; cbn in OV end.
      eapply inv_iters; eauto; rewrite S3.
      * rewrite !app_length, upd_len, LO. reflexivity.
      * intros j jt' w Hj Ho. apply vget_app_cases in Hj. apply app_own in Ho. rewrite upd_len in Hj. rewrite LO in Ho.
        destruct Hj as [[L Hj]|[-> <-]]; destruct Ho as [Ho|[L2 ->]]; try lia.
        -- destruct (Nat.eq_dec j k) as [->|Ne].
           ++ rewrite vget_upd_same in Hj by auto. injection Hj as <-. rewrite S4, S5. eapply (I_iter _ _ I); eauto.
           ++ rewrite vget_upd_other in Hj by auto. eapply (I_iter _ _ I); eauto.
        -- exfalso. assert (length (iters (base s)) < length o) by (apply nth_error_Some; congruence). lia.
        -- rewrite S6, S7. eapply (I_iter _ _ I); eauto.
  - inversion H; subst. cbn [lstep] in E. rewrite (var_ok_alive s _ v I) in E by auto. cbn [bind] in E.
    apply bind_Ok_inv in E. destruct E as (b & Hb & E). pose proof (inv_destroy s n d o h v b I ltac:(auto) Hb) as K.
    destruct (b_quad b) as [a|].
    + destruct K as (x & K1 & K2 & K3). rewrite (decr_Ok _ _ _ K1 K2) in E. injection E as <-. exact K3.
    + injection E as <-. exact K.
  - inversion H; subst. cbn [lstep] in E. pose proof (I_held _ _ I) as EH. cbn in EH. subst h. rewrite isin_true in E by auto.
    destruct (inv_drop s n d o (held s) a I ltac:(auto)) as (x & K1 & K2 & K3). rewrite (decr_Ok _ _ _ K1 K2) in E. injection E as <-. exact K3.
Qed.

(** In-scope destruction always succeeds and leaves everything else. *)
Lemma lstep_free : forall fuel s sc c sc', inv s sc -> scoped sc c sc' -> (forall b, c <> LOp b) ->
  exists s', lstep part fuel s c = Ok s' /\ base s' = base s.
Proof.
  intros fuel s sc c sc' I H N. destruct c as [c|v|a]; [destruct (N c); auto| |]; inversion H; subst; cbn [lstep].
  - rewrite (var_ok_alive s _ v I) by auto. cbn [bind].
    assert (Lv : v < length (vars (base s))) by (rewrite <- (I_vars _ _ I); match goal with A : alive _ v |- _ => apply A end).
    destruct (vget_some _ _ Lv) as (b & Hb). rewrite Hb. cbn [bind].
    pose proof (inv_destroy s n d o h v b I ltac:(auto) Hb) as K. destruct (b_quad b) as [a|].
    + destruct K as (x & K1 & K2 & K3). rewrite (decr_Ok _ _ _ K1 K2). eexists. split; reflexivity.
    + eexists. split; reflexivity.
  - pose proof (I_held _ _ I) as EH. cbn in EH. subst h. rewrite isin_true by auto.
    destruct (inv_drop s n d o (held s) a I ltac:(auto)) as (x & K1 & K2 & K3). rewrite (decr_Ok _ _ _ K1 K2). eexists. split; reflexivity.
Qed.

Lemma lrun_inv : forall fuel cs s sc sc' s', inv s sc -> scopes sc cs sc' -> lrun part fuel s cs = Ok s' -> inv s' sc'.
Proof.
  intros fuel. induction cs as [|c cs IH]; intros s sc sc' s' I H E; inversion H; subst; cbn [lrun] in E.
  - injection E as <-. auto.
  - apply bind_Ok_inv in E. destruct E as (s1 & E1 & E2). apply (IH s1 b sc' s'); auto. eapply lstep_inv; eauto.
Qed.

Lemma lrun_base : forall fuel cs s sc sc', inv s sc -> scopes sc cs sc' ->
  (let* s' := lrun part fuel s cs in Ok (base s')) = run part fuel (base s) (erase cs).
Proof.
  intros fuel. induction cs as [|c cs IH]; intros s sc sc' I H; inversion H; subst; cbn [lrun].
  - reflexivity.
  - assert (NB : (forall b0, c <> LOp b0) -> (let* s' := lrun part fuel s (c :: cs) in Ok (base s')) = run part fuel (base s) (erase cs)).
    { intro N. destruct (lstep_free fuel s sc c b I ltac:(auto) N) as (s1 & E1 & E2). cbn [lrun]. rewrite E1. cbn [bind].
      rewrite <- E2. apply (IH s1 b sc'); auto. eapply lstep_inv; eauto. }
    destruct c as [c|v|a]; [|apply NB; discriminate|apply NB; discriminate]. clear NB.
    cbn [erase run]. pose proof (lstep_base fuel s sc c b I ltac:(auto)) as SB.
    destruct (lstep part fuel s (LOp c)) as [s1| | | |] eqn:E1; cbn [bind] in *; rewrite <- SB; cbn [bind]; auto.
    apply (IH s1 b sc'); auto. eapply lstep_inv; eauto.
Qed.

(** Out of scope: undefined behaviour. *)
Lemma alive_dec : forall sc v, alive sc v \/ ~ alive sc v.
Proof.
  intros sc v. unfold alive. destruct (lt_dec v (sc_vars sc)); [|right; tauto].
  destruct (in_dec Nat.eq_dec v (sc_dead sc)); [right; tauto|left; auto].
Qed.
Lemma not_alive : forall s sc v, inv s sc -> ~ alive sc v -> var_ok s v = UB \/ (var_ok s v = Ok tt /\ vget (vars (base s)) v = UB).
Proof.
  intros s sc v I N. unfold var_ok. destruct (isin v (dead s)) eqn:E; auto. right. split; auto. apply vget_oob.
  destruct (le_lt_dec (length (vars (base s))) v) as [L|L]; auto. exfalso. apply N. split.
  - rewrite (I_vars _ _ I). auto.
  - rewrite (I_dead _ _ I). intro K. apply isin_true in K. congruence.
Qed.
Lemma lstep_out : forall fuel s sc c, inv s sc -> (forall sc', ~ scoped sc c sc') -> lstep part fuel s c = UB.
Proof.
  intros fuel s [n d o h] c I N.
  assert (VQ : forall v, ~ alive (mkScope n d o h) v -> (let* _ := var_ok s v in quad_ok s v) = UB).
  { intros v A. destruct (not_alive s _ v I A) as [E|[E1 E2]]; [rewrite E; reflexivity|]. rewrite E1. cbn [bind]. unfold quad_ok. rewrite E2. reflexivity. }
  assert (NH : forall a, ~ In a h -> isin a (held s) = false).
  { intros a A. apply isin_false. rewrite <- (I_held _ _ I). exact A. }
  assert (VK : forall k, (forall v, ~ valid (mkScope n d o h) k v) -> vec_ok s k = UB) by (intros k K; eapply vec_ok_invalid; eauto).
  destruct c as [c|v|a].
  - destruct c as [maxsz q|maxsz q idx|maxsz a|maxsz a idx|v|v|v|v x|v i p|v i w|v|v|k|k|k z]; cbn [lstep lcheck].
    + destruct (N _ (sc_new n d o h maxsz q)).
    + destruct (N _ (sc_newidx n d o h maxsz q idx)).
    + rewrite NH; [reflexivity|]. intro K. exact (N _ (sc_shared n d o h maxsz a K)).
    + rewrite NH; [reflexivity|]. intro K. exact (N _ (sc_sharedidx n d o h maxsz a idx K)).
    + destruct (not_alive s _ v I (fun K => N _ (sc_copy n d o h v K))) as [E|[E1 E2]]; [rewrite E; reflexivity|].
      rewrite E1. cbn [bind step]. rewrite E2. reflexivity.
    + destruct (not_alive s _ v I (fun K => N _ (sc_move n d o h v K))) as [E|[E1 E2]]; [rewrite E; reflexivity|].
      rewrite E1. cbn [bind step]. rewrite E2. reflexivity.
    + rewrite VQ; [reflexivity|]. intro K. exact (N _ (sc_clone n d o h v K)).
    + rewrite VQ; [reflexivity|]. intro K. exact (N _ (sc_recenter (mkScope n d o h) v x K)).
    + rewrite VQ; [reflexivity|]. intro K. exact (N _ (sc_setpoint (mkScope n d o h) v i p K)).
    + rewrite VQ; [reflexivity|]. intro K. exact (N _ (sc_setweight (mkScope n d o h) v i w K)).
    + rewrite VQ; [reflexivity|]. intro K. exact (N _ (sc_begin n d o h v K)).
    + rewrite VQ; [reflexivity|]. intro K. exact (N _ (sc_end n d o h v K)).
    + rewrite VK; [reflexivity|]. intros v K. exact (N _ (sc_inc (mkScope n d o h) k v K)).
    + rewrite VK; [reflexivity|]. intros v K. exact (N _ (sc_postinc n d o h k v K)).
    + rewrite VK; [reflexivity|]. intros v K. exact (N _ (sc_plus n d o h k v z K)).
  - cbn [lstep]. destruct (not_alive s _ v I (fun K => N _ (sc_destroy n d o h v K))) as [E|[E1 E2]]; [rewrite E; reflexivity|].
    rewrite E1. cbn [bind]. rewrite E2. reflexivity.
  - cbn [lstep]. rewrite NH; [reflexivity|]. intro K. exact (N _ (sc_drop n d o h a K)).
Qed.

(** ** Statements *)
Section Final.
Variables (fuel : nat) (h0 : list (sphobj S)).

Lemma life_safe : forall cs sc, scopes (scope0 (length h0)) cs sc ->
  (let* s := lrun part fuel (linit h0) cs in Ok (base s)) = run part fuel (mkState h0 [] []) (erase cs).
Proof. intros cs sc H. exact (lrun_base fuel cs (linit h0) _ sc (inv_init h0) H). Qed.

Lemma life_out : forall cs sc c s, scopes (scope0 (length h0)) cs sc -> lrun part fuel (linit h0) cs = Ok s ->
  (forall sc', ~ scoped sc c sc') -> lstep part fuel s c = UB.
Proof. intros cs sc c s H E N. eapply lstep_out; eauto. eapply lrun_inv; eauto. apply inv_init. Qed.

Lemma life_views : forall cs sc s, scopes (scope0 (length h0)) cs sc -> lrun part fuel (linit h0) cs = Ok s ->
  (forall v, alive sc v -> lview s v = view (base s) v) /\ (forall v, ~ alive sc v -> lview s v = UB) /\
  (forall k v, valid sc k v -> lderef s k = iter_deref (base s) k) /\ (forall k, (forall v, ~ valid sc k v) -> lderef s k = UB).
Proof.
  intros cs sc s H E. pose proof (lrun_inv _ _ _ _ _ _ (inv_init h0) H E) as I. repeat split.
  - intros v A. unfold lview. rewrite (var_ok_alive s sc v I A), (quad_ok_alive s sc v I A). reflexivity.
  - intros v A. unfold lview. destruct (not_alive s sc v I A) as [K|[K1 K2]]; [rewrite K; reflexivity|].
    rewrite K1. unfold quad_ok. cbn [bind]. rewrite K2. reflexivity.
  - intros k v A. unfold lderef. rewrite (vec_ok_valid s sc k v I A). cbn [bind]. destruct A as [Ho A].
    assert (Lk : k < length (iters (base s))) by (rewrite <- (I_own _ _ I); apply nth_error_Some; congruence).
    destruct (vget_some _ _ Lk) as (it & Hk). rewrite Hk. cbn [bind].
    destruct (I_iter _ _ I k it v Hk Ho) as (b & B1 & B2 & B3). rewrite (obj_ok_var s sc v b _ I A B1 B2). reflexivity.
  - intros k N. unfold lderef. rewrite (vec_ok_invalid s sc k I N). reflexivity.
Qed.

Lemma holdsb_shares : forall s sc a v, inv s sc -> (v < length (vars (base s)) /\ holdsb (dead s) (vars (base s)) a v = true) <-> shares sc (base s) a v.
Proof.
  intros s sc a v I. unfold shares, alive. rewrite (I_vars _ _ I), (I_dead _ _ I). split.
  - intros [L B]. unfold holdsb in B. apply andb_prop in B. destruct B as [B1 B2].
    destruct (nth_error (vars (base s)) v) as [b|] eqn:E; [|discriminate]. split; [split; auto|].
    + intro K. rewrite (isin_true _ _ K) in B1. discriminate.
    + exists b. split; [apply vget_Ok; auto|apply hasq_iff; auto].
  - intros ((L & N) & b & Hb & Q). split; auto. rewrite (holdsb_at _ _ _ _ _ Hb N). apply hasq_iff. auto.
Qed.

Lemma life_count : forall cs sc s a, scopes (scope0 (length h0)) cs sc -> lrun part fuel (linit h0) cs = Ok s ->
  a < length (heap (base s)) -> exists l, sharers sc (base s) a l /\
  vget (cnt s) a = Ok (length l + if in_dec Nat.eq_dec a (sc_held sc) then 1 else 0).
Proof.
  intros cs sc s a H E La. pose proof (lrun_inv _ _ _ _ _ _ (inv_init h0) H E) as I.
  exists (filter (holdsb (dead s) (vars (base s)) a) (seq 0 (length (vars (base s))))). split.
  - split; [apply NoDup_filter, seq_NoDup|]. intro v. rewrite filter_In, in_seq, <- (holdsb_shares s sc a v I).
    intuition lia.
  - rewrite (I_cnt _ _ I a La). f_equal. unfold count. f_equal. unfold hbit. rewrite (I_held _ _ I).
    destruct (in_dec Nat.eq_dec a (held s)) as [K|K]; [rewrite (isin_true _ _ K)|rewrite (isin_false _ _ K)]; reflexivity.
Qed.

Lemma life_object : forall cs sc s a, scopes (scope0 (length h0)) cs sc -> lrun part fuel (linit h0) cs = Ok s ->
  a < length (heap (base s)) ->
  (obj_ok s a = Ok tt <-> (In a (sc_held sc) \/ exists v, shares sc (base s) a v)) /\
  (obj_ok s a = UB <-> (~ In a (sc_held sc) /\ forall v, ~ shares sc (base s) a v)).
Proof.
  intros cs sc s a H E La. destruct (life_count cs sc s a H E La) as (l & (ND & HL) & C). unfold obj_ok. rewrite C. cbn [bind].
  destruct (in_dec Nat.eq_dec a (sc_held sc)) as [K|K].
  - rewrite Nat.add_1_r. cbn. split; split; try tauto; discriminate.
  - rewrite Nat.add_0_r. destruct l as [|v l]; cbn.
    + split; split; try tauto; try discriminate.
      * intros [K1|(v & K1)]; [contradiction|]. apply HL in K1. destruct K1.
      * intros _. split; auto. intros v K1. apply HL in K1. destruct K1.
    + assert (SV : shares sc (base s) a v) by (apply HL; left; auto). split; split; try discriminate; auto.
      * intros _. right. eauto.
      * intros [_ K1]. destruct (K1 v SV).
Qed.

Lemma life_no_leak : forall cs sc s, scopes (scope0 (length h0)) cs sc -> lrun part fuel (linit h0) cs = Ok s ->
  (forall v, ~ alive sc v) -> sc_held sc = [] -> cnt s = repeat 0 (length (heap (base s))).
Proof.
  intros cs sc s H E ND NH. pose proof (lrun_inv _ _ _ _ _ _ (inv_init h0) H E) as I. rewrite <- (I_len _ _ I).
  assert (Z : forall a x, vget (cnt s) a = Ok x -> x = 0).
  { intros a x Hx. assert (La : a < length (heap (base s))) by (rewrite <- (I_len _ _ I); eapply vget_lt; eauto).
    destruct (life_count cs sc s a H E La) as (l & (_ & HL) & C). rewrite Hx in C. injection C as ->. rewrite NH. cbn.
    destruct l as [|v l]; auto. assert (SV : shares sc (base s) a v) by (apply HL; left; auto). destruct SV as (A & _). destruct (ND v A). }
  clear - Z. induction (cnt s) as [|x l IH]; auto. cbn [length repeat]. rewrite <- IH.
  - f_equal. apply (Z 0). reflexivity.
  - intros a y Hy. apply (Z (Datatypes.S a)). exact Hy.
Qed.

Lemma scopes_snoc : forall cs a b c e, scopes a cs b -> scoped b c e -> scopes (S := S) a (cs ++ [c]) e.
Proof.
  induction cs as [|c0 cs IH]; intros a b c e H K; inversion H; subst; cbn [app].
  - eapply sc_cons; [exact K|apply sc_nil].
  - eapply sc_cons; eauto.
Qed.
Lemma lrun_app : forall cs s s' c, lrun part fuel s cs = Ok s' -> lrun part fuel s (cs ++ [c]) = lstep part fuel s' c.
Proof.
  induction cs as [|c0 cs IH]; intros s s' c H; cbn [app lrun] in *.
  - injection H as <-. destruct (lstep part fuel s c); reflexivity.
  - apply bind_Ok_inv in H. destruct H as (s1 & H1 & H2). rewrite H1. cbn [bind]. apply IH. auto.
Qed.

Lemma life_others : forall cs sc s u s', scopes (scope0 (length h0)) cs sc -> lrun part fuel (linit h0) cs = Ok s ->
  lstep part fuel s (LDestroy u) = Ok s' -> forall v, v <> u ->
  lview s' v = lview s v /\ (forall k, nth_error (sc_own sc) k = Some v -> lderef s' k = lderef s k).
Proof.
  intros cs sc s u s' H E D v Ne. destruct (alive_dec sc u) as [A|A].
  2:{ rewrite (life_out cs sc (LDestroy u) s H E) in D; [discriminate|]. intros sc' K. inversion K; subst. contradiction. }
  destruct sc as [n d o h]. pose proof (sc_destroy (S := S) n d o h u A) as K.
  pose proof (scopes_snoc _ _ _ _ _ H K) as H2. assert (E2 : lrun part fuel (linit h0) (cs ++ [LDestroy u]) = Ok s').
  { rewrite (lrun_app _ _ _ _ E). exact D. }
  pose proof (lrun_inv _ _ _ _ _ _ (inv_init h0) H E) as I.
  destruct (lstep_free fuel s _ _ _ I K ltac:(discriminate)) as (s1 & D1 & D2). rewrite D in D1. injection D1 as <-.
  destruct (life_views _ _ _ H E) as (V1 & V2 & V3 & V4). destruct (life_views _ _ _ H2 E2) as (W1 & W2 & W3 & W4).
  assert (AL : alive (mkScope n (u :: d) o h) v <-> alive (mkScope n d o h) v).
  { unfold alive. cbn. intuition congruence. }
  split.
  - destruct (alive_dec (mkScope n d o h) v) as [B|B].
    + rewrite (V1 v B), (W1 v), D2 by (apply AL; auto). reflexivity.
    + rewrite (V2 v B), (W2 v) by (rewrite AL; auto). reflexivity.
  - intros k Ho. cbn in Ho. destruct (alive_dec (mkScope n d o h) v) as [B|B].
    + rewrite (V3 k v), (W3 k v), D2 by (split; cbn; auto; apply AL; auto). reflexivity.
    + rewrite (V4 k), (W4 k); auto; intros w [W5 W6]; cbn in W5; assert (w = v) by congruence; subst w; [apply AL in W6|]; contradiction.
Qed.
End Final.
End Facts.
