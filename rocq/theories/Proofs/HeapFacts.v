(** Histories of batcher operations. *)
From Coq Require Import List Arith ZArith Lia Bool.
From Verif Require Import Base.Outcome Base.OutcomeFacts Base.Scalar Model.Quadrature
  Model.S2 Model.Composite Model.Batcher Model.Heap Spec.HeapSpec.
Import ListNotations.
Local Open Scope nat_scope.

Lemma vget_app1 : forall {A} (l r : list A) i, i < length l -> vget (l ++ r) i = vget l i.
Proof. intros. unfold vget. rewrite nth_error_app1; auto. Qed.
Lemma vget_app_last : forall {A} (l : list A) x, vget (l ++ [x]) (length l) = Ok x.
Proof. intros. unfold vget. rewrite nth_error_app2, Nat.sub_diag by lia. auto. Qed.
Lemma vget_lt : forall {A} (l : list A) i x, vget l i = Ok x -> i < length l.
Proof. intros A l i x H. apply vget_Ok in H. apply nth_error_Some. congruence. Qed.
Lemma nth_error_upd : forall {A} (v : list A) i j a, i < length v ->
  nth_error (upd v i a) j = if Nat.eqb j i then Some a else nth_error v j.
Proof.
  induction v as [|x r IH]; intros i j a H; simpl in H; [lia|].
  destruct i, j; simpl; auto. apply IH; lia.
Qed.
Lemma vget_upd_same : forall {A} (v : list A) i a, i < length v -> vget (upd v i a) i = Ok a.
Proof. intros. unfold vget. rewrite nth_error_upd, Nat.eqb_refl by auto. auto. Qed.
Lemma vget_upd_other : forall {A} (v : list A) i j a, i < length v -> j <> i ->
  vget (upd v i a) j = vget v j.
Proof. intros. unfold vget. rewrite nth_error_upd by auto. destruct (Nat.eqb_spec j i); congruence. Qed.

Lemma mem_In : forall v A, mem v A = true <-> In v A.
Proof.
  intros. unfold mem. rewrite existsb_exists. split.
  - intros (x & Hx & E). apply Nat.eqb_eq in E. subst. auto.
  - intro H. exists v. split; auto. apply Nat.eqb_refl.
Qed.

Lemma In_remove_iff : forall v u A, In u (remove Nat.eq_dec v A) <-> In u A /\ u <> v.
Proof.
  intros v u A. split.
  - intro H. apply in_remove in H. tauto.
  - intros [H1 H2]. apply in_in_remove; auto.
Qed.

Section Heap.
Context {S : Scalar}.
Variable part : (pw S -> bool) -> list (pw S) -> list (pw S).

(** Every variable points to an allocated quadrature or is null. *)
Definition wf (s : state S) : Prop :=
  forall v b a, vget (vars s) v = Ok b -> b_quad b = Some a -> a < length (heap s).

Lemma vget_app_cases : forall {A} (l : list A) x v y, vget (l ++ [x]) v = Ok y ->
  (v < length l /\ vget l v = Ok y) \/ (v = length l /\ x = y).
Proof.
  intros A l x v y H. assert (Hl := vget_lt _ _ _ H). rewrite app_length in Hl. simpl in Hl.
  destruct (Nat.eq_dec v (length l)) as [->|].
  - right. rewrite vget_app_last in H. injection H as ->. auto.
  - left. rewrite vget_app1 in H by lia. split; auto. lia.
Qed.

Lemma deref_quad_Ok : forall b a, deref_quad b = Ok a -> b_quad b = Some a.
Proof. intros b a. unfold deref_quad. destruct (b_quad b); congruence. Qed.

Lemma advance_Ok : forall (s : state S) k d it' s', advance s k d = Ok (it', s') ->
  exists it, vget (iters s) k = Ok it /\
    move_pos (length (i_idx it)) (i_pos it) d = Ok (i_pos it') /\
    it' = mkIter (i_vec it) (i_idx it) (i_pos it') (i_obj it) /\
    heap s' = heap s /\ vars s' = vars s /\ iters s' = upd (iters s) k it'.
Proof.
  intros s k d it' s' H. unfold advance in H.
  apply bind_Ok_inv in H. destruct H as (it & H1 & H).
  apply bind_Ok_inv in H. destruct H as (pos & H2 & H).
  apply bind_Ok_inv in H. destruct H as (its & H3 & H). injection H as <- <-.
  apply vset_Ok_inv in H3. destruct H3 as [_ ->]. exists it. cbn. auto 8.
Qed.

Local Ltac inv H :=
  repeat (let x := fresh "x" in let E := fresh "E" in
    apply bind_Ok_inv in H; destruct H as (x & E & H)).

(** ** Effect of one step *)
Lemma step_heap : forall fuel (s : state S) c s', step part fuel s c = Ok s' ->
  ((heap s' = heap s \/ exists o, heap s' = heap s ++ [o]) /\
     writes c = None /\ (forall m b, c <> OpNewShared m b)) \/
  (exists a o, a < length (heap s) /\ heap s' = upd (heap s) a o /\
     ((exists v b, writes c = Some v /\ vget (vars s) v = Ok b /\ b_quad b = Some a) \/
      exists m, c = OpNewShared m a)).
Proof.
  intros fuel s c s' H.
  destruct c as [maxsz o|maxsz o idx|maxsz a|maxsz a idx|v|v|v|v x|v i p|v i w|v|v|k|k|k d]; simpl in H.
  - inv H. destruct x as [o' idx]. injection H as <-. left. simpl. split; [eauto|]. split; [auto|discriminate].
  - injection H as <-. left. simpl. split; [eauto|]. split; [auto|discriminate].
  - apply bind_Ok_inv in H. destruct H as (o & HO & H).
    apply bind_Ok_inv in H. destruct H as ([o' idx] & _ & H).
    apply bind_Ok_inv in H. destruct H as (h & HS & H). injection H as <-.
    apply vset_Ok_inv in HS. destruct HS as [Hl ->]. right. simpl. exists a, o'. eauto.
  - inv H. injection H as <-. left. simpl. split; [auto|]. split; [auto|discriminate].
  - inv H. injection H as <-. left. simpl. split; [auto|]. split; [auto|discriminate].
  - inv H. injection H as <-. left. simpl. split; [auto|]. split; [auto|discriminate].
  - inv H. injection H as <-. left. simpl. split; [eauto|]. split; [auto|discriminate].
  - apply bind_Ok_inv in H. destruct H as (b & HO & H).
    apply bind_Ok_inv in H. destruct H as (a & HA & H). apply deref_quad_Ok in HA.
    apply bind_Ok_inv in H. destruct H as (o & HH & H).
    apply bind_Ok_inv in H. destruct H as (o' & HR & H).
    apply bind_Ok_inv in H. destruct H as (h & HS & H). injection H as <-.
    apply vset_Ok_inv in HS. destruct HS as [Hl ->]. right. simpl. exists a, o'. eauto 8.
  - apply bind_Ok_inv in H. destruct H as (b & HO & H).
    apply bind_Ok_inv in H. destruct H as (a & HA & H). apply deref_quad_Ok in HA.
    apply bind_Ok_inv in H. destruct H as (o & HH & H).
    apply bind_Ok_inv in H. destruct H as (o' & HR & H).
    apply bind_Ok_inv in H. destruct H as (h & HS & H). injection H as <-.
    apply vset_Ok_inv in HS. destruct HS as [Hl ->]. right. simpl. exists a. eexists. eauto 8.
  - apply bind_Ok_inv in H. destruct H as (b & HO & H).
    apply bind_Ok_inv in H. destruct H as (a & HA & H). apply deref_quad_Ok in HA.
    apply bind_Ok_inv in H. destruct H as (o & HH & H).
    apply bind_Ok_inv in H. destruct H as (o' & HR & H).
    apply bind_Ok_inv in H. destruct H as (h & HS & H). injection H as <-.
    apply vset_Ok_inv in HS. destruct HS as [Hl ->]. right. simpl. exists a. eexists. eauto 8.
  - inv H. injection H as <-. left. simpl. split; [auto|]. split; [auto|discriminate].
  - inv H. destruct (b_idx x); [discriminate|]. injection H as <-. left. simpl. split; [auto|]. split; [auto|discriminate].
  - apply bind_Ok_inv in H. destruct H as ([it s1] & HA & H). injection H as <-.
    apply advance_Ok in HA. destruct HA as (it0 & _ & _ & _ & -> & _).
    left. split; [auto|]. split; [auto|discriminate].
  - inv H. destruct x0 as [it s1]. injection H as <-.
    apply advance_Ok in E0. destruct E0 as (it0 & _ & _ & _ & E1 & _). simpl. rewrite E1.
    left. split; [auto|]. split; [auto|discriminate].
  - apply bind_Ok_inv in H. destruct H as ([it s1] & HA & H). injection H as <-.
    apply advance_Ok in HA. destruct HA as (it0 & _ & _ & _ & E1 & _). simpl. rewrite E1.
    left. split; [auto|]. split; [auto|discriminate].
Qed.

Lemma step_vars : forall fuel (s : state S) c s', step part fuel s c = Ok s' ->
  match c with
  | OpNew _ _ | OpNewIdx _ _ _ => exists b, heap s' <> heap s /\ length (heap s') = length (heap s) + 1 /\
      vars s' = vars s ++ [b] /\ b_quad b = Some (length (heap s))
  | OpNewShared _ a | OpNewSharedIdx _ a _ => exists b, a < length (heap s) /\
      vars s' = vars s ++ [b] /\ b_quad b = Some a
  | OpCopy v => exists b, vget (vars s) v = Ok b /\ heap s' = heap s /\
      vars s' = vars s ++ [mkBatcher (b_max b) (b_quad b) (length (vars s)) (b_idx b)]
  | OpMove v => exists b, vget (vars s) v = Ok b /\ heap s' = heap s /\
      vars s' = upd (vars s) v (moved_from b) ++ [b]
  | OpClone v => exists b a o, vget (vars s) v = Ok b /\ b_quad b = Some a /\ vget (heap s) a = Ok o /\
      heap s' = heap s ++ [o] /\
      vars s' = vars s ++ [mkBatcher (b_max b) (Some (length (heap s))) (length (vars s)) (b_idx b)]
  | _ => vars s' = vars s
  end.
Proof.
  assert (NE : forall (h : list (sphobj S)) o, h ++ [o] <> h).
  { intros h o E. apply (f_equal (@length _)) in E. rewrite app_length in E. simpl in E. lia. }
  intros fuel s c s' H.
  destruct c as [maxsz o|maxsz o idx|maxsz a|maxsz a idx|v|v|v|v x|v i p|v i w|v|v|k|k|k d]; simpl in H.
  - inv H. destruct x as [o' idx]. injection H as <-. simpl. rewrite app_length. eexists. split; [apply NE|]. split; [auto|]. split; [reflexivity|]. reflexivity.
  - injection H as <-. simpl. rewrite app_length. eexists. split; [apply NE|]. split; [auto|]. split; [reflexivity|]. reflexivity.
  - inv H. destruct x0 as [o' idx]. inv H. injection H as <-. simpl. apply vset_Ok_inv in E1. destruct E1 as [Hl ->].
    eexists. split; [auto|]. split; [reflexivity|]. reflexivity.
  - inv H. injection H as <-. simpl. eexists. split; [eapply vget_lt; eauto|]. split; [reflexivity|]. reflexivity.
  - inv H. injection H as <-. simpl. eauto.
  - inv H. injection H as <-. apply vset_Ok_inv in E0. destruct E0 as [Hl ->]. simpl. eauto.
  - apply bind_Ok_inv in H. destruct H as (b & HO & H).
    apply bind_Ok_inv in H. destruct H as (a & HA & H). apply deref_quad_Ok in HA.
    apply bind_Ok_inv in H. destruct H as (o & HH & H). injection H as <-. simpl.
    exists b, a, o. repeat split; auto. destruct o as [[p w] c]. auto.
  - inv H. injection H as <-. auto.
  - inv H. injection H as <-. auto.
  - inv H. injection H as <-. auto.
  - inv H. injection H as <-. auto.
  - inv H. destruct (b_idx x); [discriminate|]. injection H as <-. auto.
  - apply bind_Ok_inv in H. destruct H as ([it s1] & HA & H). injection H as <-.
    apply advance_Ok in HA. destruct HA as (it0 & _ & _ & _ & _ & -> & _). auto.
  - inv H. destruct x0 as [it s1]. injection H as <-.
    apply advance_Ok in E0. destruct E0 as (it0 & _ & _ & _ & _ & E1 & _). auto.
  - apply bind_Ok_inv in H. destruct H as ([it s1] & HA & H). injection H as <-.
    apply advance_Ok in HA. destruct HA as (it0 & _ & _ & _ & _ & E1 & _). auto.
Qed.

Lemma step_heap_len : forall fuel (s : state S) c s', step part fuel s c = Ok s' ->
  length (heap s) <= length (heap s').
Proof.
  intros fuel s c s' H. apply step_heap in H. destruct H as [[[E|(o & E)] _]|(a & o & _ & E & _)]; rewrite E.
  - lia.
  - rewrite app_length. lia.
  - rewrite upd_length. lia.
Qed.

Lemma step_nvars : forall fuel (s : state S) c s', step part fuel s c = Ok s' ->
  length (vars s') = nvars_after (length (vars s)) c.
Proof.
  intros fuel s c s' H. apply step_vars in H. destruct c; simpl in H |- *; try (rewrite H; reflexivity).
  - destruct H as (b & _ & _ & -> & _). apply app_length.
  - destruct H as (b & _ & _ & -> & _). apply app_length.
  - destruct H as (b & _ & -> & _). apply app_length.
  - destruct H as (b & _ & -> & _). apply app_length.
  - destruct H as (b & _ & _ & ->). apply app_length.
  - destruct H as (b & _ & _ & ->). rewrite app_length, upd_length. reflexivity.
  - destruct H as (b & a & o & _ & _ & _ & _ & ->). apply app_length.
Qed.

(** Where the batchers of [s'] come from. *)
Lemma step_var_inv : forall fuel (s : state S) c s' v b, step part fuel s c = Ok s' ->
  vget (vars s') v = Ok b ->
  (v < length (vars s) /\ vget (vars s) v = Ok b) \/
  (exists b0, c = OpMove v /\ vget (vars s) v = Ok b0 /\ b = moved_from b0) \/
  (v = length (vars s) /\
   (b_quad b = Some (length (heap s)) /\ length (heap s) < length (heap s') \/
    (exists a m, (c = OpNewShared m a \/ exists idx, c = OpNewSharedIdx m a idx) /\ b_quad b = Some a /\ a < length (heap s)) \/
    (exists u b0, (c = OpCopy u \/ c = OpMove u) /\ vget (vars s) u = Ok b0 /\ b_quad b = b_quad b0))).
Proof.
  intros fuel s c s' v b H Hv. apply step_vars in H.
  destruct c; simpl in H; try (rewrite H in Hv; left; split; [eapply vget_lt|]; eassumption).
  - destruct H as (b' & _ & L & E & Q). rewrite E in Hv. apply vget_app_cases in Hv.
    destruct Hv as [Hv|[-> ->]]; [auto|]. right; right. split; [auto|]. left. split; [auto|lia].
  - destruct H as (b' & _ & L & E & Q). rewrite E in Hv. apply vget_app_cases in Hv.
    destruct Hv as [Hv|[-> ->]]; [auto|]. right; right. split; [auto|]. left. split; [auto|lia].
  - destruct H as (b' & L & E & Q). rewrite E in Hv. apply vget_app_cases in Hv.
    destruct Hv as [Hv|[-> ->]]; [auto|]. right; right. split; [auto|]. right; left. eauto 8.
  - destruct H as (b' & L & E & Q). rewrite E in Hv. apply vget_app_cases in Hv.
    destruct Hv as [Hv|[-> ->]]; [auto|]. right; right. split; [auto|]. right; left. eauto 8.
  - destruct H as (b' & L & _ & E). rewrite E in Hv. apply vget_app_cases in Hv.
    destruct Hv as [Hv|[-> <-]]; [auto|]. right; right. split; [auto|]. right; right. eauto 8.
  - destruct H as (b' & L & _ & E). rewrite E in Hv. apply vget_app_cases in Hv. rewrite upd_length in Hv.
    destruct Hv as [[Hl Hv]|[-> <-]]; [|right; right; split; [auto|]; right; right; eauto 8].
    destruct (Nat.eq_dec v v0) as [->|Hne].
    + rewrite vget_upd_same in Hv by auto. injection Hv as <-. right; left. eauto.
    + rewrite vget_upd_other in Hv; auto. eapply vget_lt; eauto.
  - destruct H as (b' & a & o & L & _ & _ & EH & E). rewrite E in Hv. apply vget_app_cases in Hv.
    destruct Hv as [Hv|[-> <-]]; [auto|]. right; right. split; [auto|]. left. cbn. rewrite EH, app_length. simpl. split; [auto|lia].
Qed.

Lemma step_wf : forall fuel s c s', wf s -> step part fuel s c = Ok s' -> wf s'.
Proof.
  intros fuel s c s' HW H v b a Hv Ha. pose proof (step_heap_len _ _ _ _ H) as HL.
  destruct (step_var_inv _ _ _ _ _ _ H Hv) as [[_ G]|[(b0 & _ & _ & ->)|[-> [[G1 G2]|[(a' & m & _ & G1 & G2)|(u & b0 & _ & G1 & G2)]]]]].
  - pose proof (HW _ _ _ G Ha). lia.
  - discriminate.
  - congruence.
  - assert (a' = a) by congruence. lia.
  - assert (Hb : b_quad b0 = Some a) by congruence. pose proof (HW _ _ _ G1 Hb). lia.
Qed.
Lemma run_wf : forall fuel cs s s', wf s -> run part fuel s cs = Ok s' -> wf s'.
Proof.
  intros fuel. induction cs as [|c cs IH]; intros s s' HW H; simpl in H.
  - injection H as <-. auto.
  - apply bind_Ok_inv in H. destruct H as (s1 & H1 & H2). apply (IH s1 s'); auto.
    eapply step_wf; eauto.
Qed.

(** A variable that is not moved from keeps its contents. *)
Lemma step_keeps : forall fuel s c s' v b, step part fuel s c = Ok s' -> c <> OpMove v ->
  vget (vars s) v = Ok b -> vget (vars s') v = Ok b.
Proof.
  intros fuel s c s' v b H Hm Hv. assert (Hl := vget_lt _ _ _ Hv). apply step_vars in H.
  destruct c; simpl in H; try (rewrite H; exact Hv).
  - destruct H as (b' & _ & _ & E & Q). rewrite E, vget_app1; auto.
  - destruct H as (b' & _ & _ & E & Q). rewrite E, vget_app1; auto.
  - destruct H as (b' & _ & E & Q). rewrite E, vget_app1; auto.
  - destruct H as (b' & _ & E & Q). rewrite E, vget_app1; auto.
  - destruct H as (b' & _ & _ & E). rewrite E, vget_app1; auto.
  - destruct H as (b' & L & _ & E). apply vget_lt in L.
    rewrite E, vget_app1 by (rewrite upd_length; auto). rewrite vget_upd_other; auto.
  - destruct H as (b' & a & o & _ & _ & _ & _ & E). rewrite E, vget_app1; auto.
Qed.
Lemma run_keeps : forall fuel cs s s' v b, run part fuel s cs = Ok s' -> ~ In (OpMove v) cs ->
  vget (vars s) v = Ok b -> vget (vars s') v = Ok b.
Proof.
  intros fuel. induction cs as [|c cs IH]; intros s s' v b H Hm Hv; simpl in H.
  - injection H as <-. auto.
  - apply bind_Ok_inv in H. destruct H as (s1 & H1 & H2). eapply IH; eauto.
    + intro; apply Hm; right; auto.
    + eapply step_keeps; eauto. intros ->. apply Hm; left; auto.
Qed.

(** The owner of what [v] held. *)
Lemma step_owner : forall fuel s c s' v b, step part fuel s c = Ok s' ->
  vget (vars s) v = Ok b ->
  vget (vars s') (match c with OpMove u => if Nat.eqb u v then length (vars s) else v | _ => v end) = Ok b.
Proof.
  intros fuel s c s' v b H Hv. destruct c;
    try (eapply step_keeps; [exact H|discriminate|exact Hv]).
  destruct (Nat.eqb_spec v0 v) as [->|Hne].
  - apply step_vars in H. destruct H as (b' & L & _ & E). rewrite Hv in L. injection L as <-.
    rewrite E. replace (length (vars s)) with (length (upd (vars s) v (moved_from b))) by apply upd_length.
    apply vget_app_last.
  - eapply step_keeps; [exact H|congruence|exact Hv].
Qed.
Lemma run_owner : forall fuel cs s s' v b, run part fuel s cs = Ok s' ->
  vget (vars s) v = Ok b -> vget (vars s') (owner (length (vars s)) v cs) = Ok b.
Proof.
  intros fuel. induction cs as [|c cs IH]; intros s s' v b H Hv; simpl in H.
  - injection H as <-. auto.
  - apply bind_Ok_inv in H. destruct H as (s1 & H1 & H2). cbn [owner].
    rewrite <- (step_nvars _ _ _ _ H1). eapply IH; eauto. eapply step_owner; eauto.
Qed.

(** ** Aliases *)
(** [A] is exactly the set of variables pointing to address [a]. *)
Definition exact (s : state S) (a : nat) (A : list nat) : Prop :=
  forall v, In v A <-> exists b, vget (vars s) v = Ok b /\ b_quad b = Some a.

Lemma exact_lt : forall s a A v, exact s a A -> In v A -> v < length (vars s).
Proof. intros s a A v HE H. apply HE in H. destruct H as (b & H & _). eapply vget_lt; eauto. Qed.

Lemma step_exact : forall fuel s c s' a A, wf s -> a < length (heap s) -> exact s a A ->
  step part fuel s c = Ok s' -> exact s' a (next_alias (length (vars s)) a A c).
Proof.
  intros fuel s c s' a A HW Ha HE H v.
  assert (FRESH : forall u, In u A -> u < length (vars s)) by (intros u; apply (exact_lt _ _ _ _ HE)).
  assert (KEEP : c <> OpMove v -> In v A -> exists b, vget (vars s') v = Ok b /\ b_quad b = Some a).
  { intros Hm Hv. apply HE in Hv. destruct Hv as (b & Hb & Q). exists b. split; [|auto].
    eapply step_keeps; eauto. }
  assert (OLD : v < length (vars s) -> forall b, vget (vars s) v = Ok b -> b_quad b = Some a -> In v A).
  { intros _ b Hb Q. apply HE. eauto. }
  split.
  - intro Hin. destruct c; cbn [next_alias] in Hin; try (apply KEEP; [discriminate|exact Hin]).
    + destruct (Nat.eqb_spec a0 a) as [->|]; [|apply KEEP; [discriminate|exact Hin]].
      destruct Hin as [<-|Hin]; [|apply KEEP; [discriminate|exact Hin]].
      apply step_vars in H. destruct H as (b & _ & E & Q). exists b. rewrite E, vget_app_last. auto.
    + destruct (Nat.eqb_spec a0 a) as [->|]; [|apply KEEP; [discriminate|exact Hin]].
      destruct Hin as [<-|Hin]; [|apply KEEP; [discriminate|exact Hin]].
      apply step_vars in H. destruct H as (b & _ & E & Q). exists b. rewrite E, vget_app_last. auto.
    + destruct (mem v0 A) eqn:Em; [|apply KEEP; [discriminate|exact Hin]].
      destruct Hin as [<-|Hin]; [|apply KEEP; [discriminate|exact Hin]].
      apply mem_In in Em. apply HE in Em. destruct Em as (b0 & Hb0 & Q0).
      apply step_vars in H. destruct H as (b & L & _ & E). rewrite Hb0 in L. injection L as <-.
      eexists. rewrite E, vget_app_last. split; [reflexivity|]. exact Q0.
    + destruct (mem v0 A) eqn:Em.
      * apply mem_In in Em. apply HE in Em. destruct Em as (b0 & Hb0 & Q0).
        destruct Hin as [<-|Hin].
        -- apply step_vars in H. destruct H as (b & L & _ & E). rewrite Hb0 in L. injection L as <-.
           exists b0. rewrite E. replace (length (vars s)) with (length (upd (vars s) v0 (moved_from b0))) by apply upd_length.
           rewrite vget_app_last. auto.
        -- apply In_remove_iff in Hin. destruct Hin as [Hin Hne].
           apply KEEP; [congruence|exact Hin].
      * apply KEEP; [|exact Hin]. intro E. injection E as ->. apply mem_In in Hin. congruence.
  - intros (b & Hb & Q).
    destruct (step_var_inv _ _ _ _ _ _ H Hb) as [[Hl G]|[(b0 & _ & _ & ->)|[-> G]]].
    + assert (Hin : In v A) by (apply HE; eauto).
      destruct c; cbn [next_alias]; auto.
      * destruct (Nat.eqb _ _); simpl; auto.
      * destruct (Nat.eqb _ _); simpl; auto.
      * destruct (mem _ _); simpl; auto.
      * destruct (mem v0 A) eqn:Em; [|auto]. right. apply In_remove_iff. split; [auto|]. intros ->.
        apply step_vars in H. destruct H as (b1 & L & _ & E). rewrite E, vget_app1 in Hb by (rewrite upd_length; auto).
        rewrite vget_upd_same in Hb by auto. injection Hb as <-. discriminate.
    + discriminate.
    + destruct G as [[G1 G2]|[(a' & m & G0 & G1 & G2)|(u & b0 & G0 & G1 & G2)]].
      * assert (length (heap s) = a) by congruence. lia.
      * assert (a' = a) by congruence. subst a'.
        destruct G0 as [->|(idx & ->)]; cbn [next_alias]; rewrite Nat.eqb_refl; left; auto.
      * assert (Hu : In u A) by (apply HE; exists b0; split; [auto|congruence]).
        apply mem_In in Hu.
        destruct G0 as [->| ->]; cbn [next_alias]; rewrite Hu; left; auto.
Qed.

(** The cell [a] is unchanged by programs that leave its variables alone. *)
Lemma run_leaves : forall fuel cs s s' a A, wf s -> a < length (heap s) -> exact s a A ->
  leaves_alone (length (vars s)) a A cs -> run part fuel s cs = Ok s' ->
  vget (heap s') a = vget (heap s) a /\ exact s' a (aliases (length (vars s)) a A cs).
Proof.
  intros fuel. induction cs as [|c cs IH]; intros s s' a A HW Ha HE HL H; simpl in H.
  - injection H as <-. auto.
  - apply bind_Ok_inv in H. destruct H as (s1 & H1 & H2).
    cbn [leaves_alone] in HL. destruct HL as (HL1 & HL2 & HL3).
    pose proof (step_exact _ _ _ _ _ _ HW Ha HE H1) as E1.
    assert (NV := step_nvars _ _ _ _ H1). rewrite <- NV in HL3.
    pose proof (step_heap_len _ _ _ _ H1) as HLen.
    destruct (IH s1 s' a _ (step_wf _ _ _ _ HW H1) ltac:(lia) E1 HL3 H2) as [R1 R2].
    cbn [aliases]. rewrite <- NV. split; [|exact R2]. rewrite R1.
    apply step_heap in H1. destruct H1 as [[[E|(o & E)] _]|(a' & o & Hl & E & W)]; rewrite E.
    + auto.
    + apply vget_app1; auto.
    + apply vget_upd_other; [auto|]. intros <-.
      destruct W as [(v & b & W1 & W2 & W3)|(m & W)].
      * apply (HL1 v W1). apply HE. eauto.
      * apply (HL2 m W).
Qed.

(** Programs that only touch the variables of [a] leave all other cells unchanged. *)
Lemma run_touches : forall fuel cs s s' a A, wf s -> a < length (heap s) -> exact s a A ->
  only_touches (length (vars s)) a A cs -> run part fuel s cs = Ok s' ->
  forall i, i < length (heap s) -> i <> a -> vget (heap s') i = vget (heap s) i.
Proof.
  intros fuel. induction cs as [|c cs IH]; intros s s' a A HW Ha HE HL H i Hi Hia; simpl in H.
  - injection H as <-. auto.
  - apply bind_Ok_inv in H. destruct H as (s1 & H1 & H2).
    cbn [only_touches] in HL. destruct HL as (HL1 & HL2 & HL3).
    pose proof (step_exact _ _ _ _ _ _ HW Ha HE H1) as E1.
    assert (NV := step_nvars _ _ _ _ H1). rewrite <- NV in HL3.
    pose proof (step_heap_len _ _ _ _ H1) as HLen.
    rewrite (IH s1 s' a _ (step_wf _ _ _ _ HW H1) ltac:(lia) E1 HL3 H2 i ltac:(lia) Hia).
    apply step_heap in H1. destruct H1 as [[[E|(o & E)] _]|(a' & o & Hl & E & W)]; rewrite E.
    + auto.
    + apply vget_app1; auto.
    + apply vget_upd_other; [auto|]. intros ->. apply Hia.
      destruct W as [(v & b & W1 & W2 & W3)|(m & W)].
      * pose proof (HL1 v W1) as Hv. apply HE in Hv. destruct Hv as (b' & Hb' & Q). congruence.
      * apply (HL2 m _ W).
Qed.

(** ** Clone and copy *)
Lemma clone_independent : forall fuel h0 cs0 (s : state S) v s1 cs s2,
  run part fuel (mkState h0 [] []) cs0 = Ok s ->
  step part fuel s (OpClone v) = Ok s1 -> run part fuel s1 cs = Ok s2 ->
  let w := length (vars s) in let a := length (heap s) in
  view s1 w = view s v /\
  (leaves_alone (w + 1) a [w] cs ->
     forall u, In u (aliases (w + 1) a [w] cs) -> view s2 u = view s v) /\
  (only_touches (w + 1) a [w] cs ->
     forall u, u < w -> ~ In (OpMove u) cs -> view s2 u = view s u).
Proof.
  intros fuel h0 cs0 s v s1 cs s2 H0 H1 H2 w a.
  assert (HW : wf s).
  { eapply run_wf; [|exact H0]. intros u b x Hu. unfold vget in Hu. simpl in Hu. destruct u; discriminate. }
  assert (HW1 := step_wf _ _ _ _ HW H1).
  assert (H1' := H1). apply step_vars in H1'. destruct H1' as (b & a0 & o & Hv & Hq & Ho & EH & EV).
  assert (Ev : view s v = Ok o).
  { unfold view. rewrite Hv. cbn [bind]. unfold deref_quad. rewrite Hq. exact Ho. }
  assert (Hw : vget (vars s1) w = Ok (mkBatcher (b_max b) (Some a) w (b_idx b))).
  { rewrite EV. apply vget_app_last. }
  assert (Hh : vget (heap s1) a = Ok o) by (rewrite EH; apply vget_app_last).
  assert (Ew : view s1 w = Ok o) by (unfold view; rewrite Hw; exact Hh).
  assert (NV : length (vars s1) = w + 1) by (rewrite EV, app_length; reflexivity).
  assert (HE : exact s1 a [w]).
  { intro u. split.
    - intros [<-|[]]. eexists. split; [exact Hw|reflexivity].
    - intros (bu & Hu & Q). rewrite EV in Hu. apply vget_app_cases in Hu. destruct Hu as [[Hl Hu]|[-> <-]].
      + specialize (HW u bu a Hu Q). unfold a in HW. lia.
      + left; auto. }
  assert (Ha : a < length (heap s1)) by (rewrite EH, app_length; simpl; unfold a; lia).
  split; [congruence|]. rewrite <- NV. split.
  - intros HL u Hu. destruct (run_leaves _ _ _ _ _ _ HW1 Ha HE HL H2) as [R1 R2].
    apply R2 in Hu. destruct Hu as (bu & Hbu & Q). unfold view. rewrite Hbu. cbn [bind].
    unfold deref_quad at 1. rewrite Q. cbn [bind]. rewrite R1, Hh. symmetry. exact Ev.
  - intros HT u Hu Hm.
    pose proof (run_touches _ _ _ _ _ _ HW1 Ha HE HT H2) as R.
    destruct (vget (vars s) u) as [bu| | | |] eqn:Eu;
      try (unfold vget in Eu; destruct (nth_error (vars s) u) eqn:En; try discriminate;
           apply nth_error_None in En; unfold w in Hu; lia).
    unfold view. rewrite Eu.
    rewrite (run_keeps _ _ _ _ _ _ H2 Hm (step_keeps _ _ _ _ _ _ H1 ltac:(discriminate) Eu)). cbn [bind].
    unfold deref_quad. destruct (b_quad bu) as [x|] eqn:Eq; [|reflexivity]. cbn [bind].
    pose proof (HW u bu x Eu Eq) as Hx. rewrite R by (unfold a; rewrite ?EH, ?app_length; lia).
    rewrite EH. apply vget_app1. auto.
Qed.

Lemma copy_shares : forall fuel (s : state S) v s1 cs s2,
  step part fuel s (OpCopy v) = Ok s1 -> run part fuel s1 cs = Ok s2 ->
  let w := length (vars s) in
  ~ In (OpMove v) cs -> ~ In (OpMove w) cs ->
  view s2 w = view s2 v /\
  (forall c s3, step part fuel s2 (OpRecenter v c) = Ok s3 ->
    exists o o', view s2 w = Ok o /\ recenter c o = Ok o' /\
      view s3 w = Ok o' /\ view s3 v = Ok o') /\
  (forall i p s3, step part fuel s2 (OpSetPoint v i p) = Ok s3 ->
    exists o o', view s2 w = Ok o /\ view s3 w = Ok o' /\ view s3 v = Ok o' /\
      vset (qpoints (sph_quad o)) i p = Ok (qpoints (sph_quad o')) /\
      qweights (sph_quad o') = qweights (sph_quad o) /\ sph_center o' = sph_center o) /\
  (forall i x s3, step part fuel s2 (OpSetWeight v i x) = Ok s3 ->
    exists o o', view s2 w = Ok o /\ view s3 w = Ok o' /\ view s3 v = Ok o' /\
      vset (qweights (sph_quad o)) i x = Ok (qweights (sph_quad o')) /\
      qpoints (sph_quad o') = qpoints (sph_quad o) /\ sph_center o' = sph_center o).
Proof.
  intros fuel s v s1 cs s2 H1 H2 w Hm1 Hm2.
  assert (H1' := H1). apply step_vars in H1'. destruct H1' as (b & Hv & EH & EV).
  set (b' := mkBatcher (b_max b) (b_quad b) (length (vars s)) (b_idx b)) in *.
  assert (Hw : vget (vars s1) w = Ok b') by (rewrite EV; apply vget_app_last).
  assert (Hw2 := run_keeps _ _ _ _ _ _ H2 Hm2 Hw).
  assert (Hv2 := run_keeps _ _ _ _ _ _ H2 Hm1 (step_keeps _ _ _ _ _ _ H1 ltac:(discriminate) Hv)).
  assert (Q : deref_quad b' = deref_quad b) by reflexivity.
  split; [unfold view; rewrite Hw2, Hv2; cbn [bind]; rewrite Q; auto|].
  split; [|split].
  - intros c s3 H. cbn [step] in H. rewrite Hv2 in H. cbn [bind] in H.
    apply bind_Ok_inv in H. destruct H as (a & HA & H).
    apply bind_Ok_inv in H. destruct H as (o & HH & H).
    apply bind_Ok_inv in H. destruct H as (o' & HR & H).
    apply bind_Ok_inv in H. destruct H as (h & HS & H). injection H as <-.
    apply vset_Ok_inv in HS. destruct HS as [Hl ->].
    exists o, o'. unfold view. cbn [vars heap]. rewrite Hw2, Hv2. cbn [bind]. rewrite Q, HA. cbn [bind].
    rewrite vget_upd_same by auto. auto.
  - intros i p s3 H. cbn [step] in H. rewrite Hv2 in H. cbn [bind] in H.
    apply bind_Ok_inv in H. destruct H as (a & HA & H).
    apply bind_Ok_inv in H. destruct H as (o & HH & H).
    apply bind_Ok_inv in H. destruct H as (ps & HR & H).
    apply bind_Ok_inv in H. destruct H as (h & HS & H). injection H as <-.
    apply vset_Ok_inv in HS. destruct HS as [Hl ->].
    exists o. eexists. unfold view. cbn [vars heap]. rewrite Hw2, Hv2. cbn [bind]. rewrite Q, HA. cbn [bind].
    rewrite vget_upd_same by auto. cbn. auto 8.
  - intros i p s3 H. cbn [step] in H. rewrite Hv2 in H. cbn [bind] in H.
    apply bind_Ok_inv in H. destruct H as (a & HA & H).
    apply bind_Ok_inv in H. destruct H as (o & HH & H).
    apply bind_Ok_inv in H. destruct H as (ps & HR & H).
    apply bind_Ok_inv in H. destruct H as (h & HS & H). injection H as <-.
    apply vset_Ok_inv in HS. destruct HS as [Hl ->].
    exists o. eexists. unfold view. cbn [vars heap]. rewrite Hw2, Hv2. cbn [bind]. rewrite Q, HA. cbn [bind].
    rewrite vget_upd_same by auto. cbn. auto 8.
Qed.

(** ** Moves *)
Lemma move_spec : forall fuel (s : state S) v s1, step part fuel s (OpMove v) = Ok s1 ->
  let w := length (vars s) in
  view s1 w = view s v /\ (forall i, var_at s1 w i = var_at s v i) /\
  (forall u, u < w -> u <> v -> view s1 u = view s u /\ forall i, var_at s1 u i = var_at s u i) /\
  (forall k, iter_deref s1 k = iter_deref s k) /\
  view s1 v = UB /\ (forall i, var_at s1 v i = UB) /\
  (forall c, step part fuel s1 (OpRecenter v c) = UB) /\
  step part fuel s1 (OpClone v) = UB /\
  step part fuel s1 (OpBegin v) = UB /\ step part fuel s1 (OpEnd v) = UB.
Proof.
  intros fuel s v s1 H w.
  assert (Hit : iters s1 = iters s).
  { cbn [step] in H. inv H. injection H as <-. reflexivity. }
  apply step_vars in H. destruct H as (b & Hv & EH & EV).
  assert (Hl := vget_lt _ _ _ Hv).
  assert (Hw : vget (vars s1) w = Ok b).
  { rewrite EV. unfold w. replace (length (vars s)) with (length (upd (vars s) v (moved_from b))) by apply upd_length.
    apply vget_app_last. }
  assert (Hv1 : vget (vars s1) v = Ok (moved_from b)).
  { rewrite EV, vget_app1 by (rewrite upd_length; auto). apply vget_upd_same; auto. }
  split; [unfold view; rewrite Hw, Hv, EH; reflexivity|].
  split; [intro i; unfold var_at; rewrite Hw, Hv, EH; reflexivity|].
  split.
  { intros u Hu Hne.
    assert (E : vget (vars s1) u = vget (vars s) u).
    { rewrite EV, vget_app1 by (rewrite upd_length; auto). apply vget_upd_other; auto. }
    split; [unfold view|intro i; unfold var_at]; rewrite E, EH; reflexivity. }
  split; [intro k; unfold iter_deref; rewrite Hit, EH; reflexivity|].
  split; [unfold view; rewrite Hv1; reflexivity|].
  split; [intro i; unfold var_at; rewrite Hv1; reflexivity|].
  split; [intro c; cbn [step]; rewrite Hv1; reflexivity|].
  repeat split; cbn [step]; rewrite Hv1; reflexivity.
Qed.

(** ** Iterators *)
Lemma step_iter : forall fuel (s : state S) c s' k it, step part fuel s c = Ok s' ->
  vget (iters s) k = Ok it -> exists it', vget (iters s') k = Ok it' /\
    i_vec it' = i_vec it /\ i_idx it' = i_idx it /\ i_obj it' = i_obj it /\
    Z.of_nat (i_pos it') = (Z.of_nat (i_pos it) + moves_iter k c)%Z /\
    i_pos it' <= max (i_pos it) (length (i_idx it)).
Proof.
  intros fuel s c s' k it H Hk. assert (Hl := vget_lt _ _ _ Hk).
  assert (SAME : iters s' = iters s -> moves_iter k c = 0%Z -> exists it', vget (iters s') k = Ok it' /\
    i_vec it' = i_vec it /\ i_idx it' = i_idx it /\ i_obj it' = i_obj it /\
    Z.of_nat (i_pos it') = (Z.of_nat (i_pos it) + moves_iter k c)%Z /\
    i_pos it' <= max (i_pos it) (length (i_idx it))).
  { intros -> ->. exists it. repeat split; auto; lia. }
  assert (APP : forall x, iters s' = iters s ++ [x] -> moves_iter k c = 0%Z -> exists it', vget (iters s') k = Ok it' /\
    i_vec it' = i_vec it /\ i_idx it' = i_idx it /\ i_obj it' = i_obj it /\
    Z.of_nat (i_pos it') = (Z.of_nat (i_pos it) + moves_iter k c)%Z /\
    i_pos it' <= max (i_pos it) (length (i_idx it))).
  { intros x -> ->. exists it. rewrite vget_app1 by auto. repeat split; auto; lia. }
  assert (ADV : forall j d it1 s1 x, advance s j d = Ok (it1, s1) ->
    iters s' = iters s1 \/ iters s' = iters s1 ++ [x] ->
    moves_iter k c = (if Nat.eqb j k then d else 0)%Z ->
    exists it', vget (iters s') k = Ok it' /\
    i_vec it' = i_vec it /\ i_idx it' = i_idx it /\ i_obj it' = i_obj it /\
    Z.of_nat (i_pos it') = (Z.of_nat (i_pos it) + moves_iter k c)%Z /\
    i_pos it' <= max (i_pos it) (length (i_idx it))).
  { intros j d it1 s1 x HA Es Em. apply advance_Ok in HA.
    destruct HA as (it0 & G1 & G2 & G3 & _ & _ & G4). assert (Hj := vget_lt _ _ _ G1).
    assert (X : vget (iters s') k = vget (upd (iters s) j it1) k).
    { destruct Es as [->| ->]; rewrite G4; [reflexivity|]. apply vget_app1. rewrite upd_length. auto. }
    rewrite X, Em. destruct (Nat.eqb_spec j k) as [->|Hne].
    - rewrite vget_upd_same by auto. rewrite Hk in G1. injection G1 as <-. exists it1. split; [auto|].
      rewrite G3. cbn. unfold move_pos in G2.
      destruct (Z.leb_spec 0 (Z.of_nat (i_pos it) + d)); [|discriminate].
      destruct (Z.leb_spec (Z.of_nat (i_pos it) + d) (Z.of_nat (length (i_idx it)))); [|discriminate].
      cbn [andb] in G2. injection G2 as G2. rewrite <- G2. repeat split; auto; lia.
    - rewrite vget_upd_other by auto. exists it. repeat split; auto; lia. }
  destruct c as [maxsz o|maxsz o idx|maxsz a|maxsz a idx|v|v|v|v x|v i p|v i w|v|v|j|j|j d]; simpl in H.
  - inv H. destruct x as [o' idx]. injection H as <-. apply SAME; reflexivity.
  - injection H as <-. apply SAME; reflexivity.
  - inv H. destruct x0 as [o' idx]. inv H. injection H as <-. apply SAME; reflexivity.
  - inv H. injection H as <-. apply SAME; reflexivity.
  - inv H. injection H as <-. apply SAME; reflexivity.
  - inv H. injection H as <-. apply SAME; reflexivity.
  - inv H. injection H as <-. apply SAME; reflexivity.
  - inv H. injection H as <-. apply SAME; reflexivity.
  - inv H. injection H as <-. apply SAME; reflexivity.
  - inv H. injection H as <-. apply SAME; reflexivity.
  - inv H. injection H as <-. eapply APP; reflexivity.
  - inv H. destruct (b_idx x); [discriminate|]. injection H as <-. eapply APP; reflexivity.
  - apply bind_Ok_inv in H. destruct H as ([it1 s1] & HA & H). injection H as <-.
    eapply (ADV _ _ _ _ it1 HA); [left; reflexivity|reflexivity].
  - inv H. destruct x0 as [it1 s1]. injection H as <-.
    eapply (ADV _ _ _ _ x E0); [right; reflexivity|reflexivity].
  - apply bind_Ok_inv in H. destruct H as ([it1 s1] & HA & H). injection H as <-.
    eapply (ADV _ _ _ _ it1 HA); [right; reflexivity|reflexivity].
Qed.

Lemma run_iter : forall fuel cs (s s' : state S) k it, run part fuel s cs = Ok s' ->
  vget (iters s) k = Ok it -> exists it', vget (iters s') k = Ok it' /\
    i_vec it' = i_vec it /\ i_idx it' = i_idx it /\ i_obj it' = i_obj it /\
    Z.of_nat (i_pos it') = (Z.of_nat (i_pos it) + travel k cs)%Z.
Proof.
  intros fuel. induction cs as [|c cs IH]; intros s s' k it H Hk; simpl in H.
  - injection H as <-. exists it. repeat split; auto. simpl. lia.
  - apply bind_Ok_inv in H. destruct H as (s1 & H1 & H2).
    destruct (step_iter _ _ _ _ _ _ H1 Hk) as (it1 & G1 & G2 & G3 & G4 & G5 & _).
    destruct (IH _ _ _ _ H2 G1) as (it2 & J1 & J2 & J3 & J4 & J5).
    exists it2. repeat split; try congruence. cbn [travel]. lia.
Qed.

Lemma begin_end_Ok : forall fuel (s : state S) v c s1, (c = OpBegin v \/ c = OpEnd v) ->
  step part fuel s c = Ok s1 ->
  exists b a it, vget (vars s) v = Ok b /\ b_quad b = Some a /\ heap s1 = heap s /\ vars s1 = vars s /\
    iters s1 = iters s ++ [it] /\ i_vec it = b_vec b /\ i_idx it = b_idx b /\ i_obj it = a /\
    i_pos it = match c with OpBegin _ => 0 | _ => length (b_idx b) - 1 end /\
    (c = OpEnd v -> b_idx b <> []).
Proof.
  intros fuel s v c s1 [->| ->] H; cbn [step] in H; inv H; apply deref_quad_Ok in E0.
  - injection H as <-. exists x, x0. eexists. repeat split; eauto. discriminate.
  - destruct (b_idx x) eqn:Ei; [discriminate|]. injection H as <-. exists x, x0. eexists.
    repeat split; eauto; cbn; rewrite ?Ei; auto. discriminate.
Qed.

(** Iterators are live views. *)
Lemma iterator_live : forall fuel (s : state S) v c s1 cs s2, (c = OpBegin v \/ c = OpEnd v) ->
  step part fuel s c = Ok s1 -> run part fuel s1 cs = Ok s2 ->
  let k := length (iters s) in let w := owner (length (vars s)) v cs in
  exists b, vget (vars s2) w = Ok b /\ vget (vars s) v = Ok b /\
  forall p, Z.of_nat p = (Z.of_nat (match c with OpBegin _ => 0 | _ => length (b_idx b) - 1 end) + travel k cs)%Z ->
    p < length (b_idx b) - 1 -> (Z.of_nat p < 2 ^ 31)%Z ->
    iter_deref s2 k = var_at s2 w p.
Proof.
  intros fuel s v c s1 cs s2 Hc H1 H2 k w.
  destruct (begin_end_Ok _ _ _ _ _ Hc H1) as (b & a & it & Hv & Q & EH & EV & EI & I1 & I2 & I3 & I4 & _).
  assert (Hk : vget (iters s1) k = Ok it) by (rewrite EI; apply vget_app_last).
  destruct (run_iter _ _ _ _ _ _ H2 Hk) as (it2 & J1 & J2 & J3 & J4 & J5).
  assert (Hv1 : vget (vars s1) v = Ok b) by (rewrite EV; auto).
  pose proof (run_owner _ _ _ _ _ _ H2 Hv1) as Hw. rewrite EV in Hw. fold w in Hw.
  exists b. split; [exact Hw|]. split; [exact Hv|]. intros p Hp Hlt H31.
  unfold iter_deref. rewrite J1. cbn [bind]. rewrite J4, I3, J3, I2.
  assert (Ep : i_pos it2 = p) by lia. rewrite Ep.
  unfold var_at. rewrite Hw. cbn [bind]. unfold deref_quad. rewrite Q. cbn [bind].
  unfold batch_at.
  assert (NB : nbatches (b_idx b) = Some (length (b_idx b) - 1)).
  { destruct (b_idx b); [simpl in Hlt; lia|reflexivity]. }
  rewrite NB. destruct (Nat.leb_spec (length (b_idx b) - 1) p); [lia|].
  assert (T : to_int32 p = Z.of_nat p) by (unfold to_int32; rewrite Z.mod_small; lia).
  rewrite T. replace (Z.ltb (Z.of_nat p) 0) with false by (symmetry; apply Z.ltb_ge; lia).
  rewrite Nat2Z.id. destruct (vget (heap s2) a); reflexivity.
Qed.

(** [it + d] moves [it] itself. *)
Lemma plus_moves : forall fuel (s : state S) k d s1, step part fuel s (OpPlus k d) = Ok s1 ->
  exists it it', vget (iters s) k = Ok it /\ vget (iters s1) k = Ok it' /\
    vget (iters s1) (length (iters s)) = Ok it' /\
    Z.of_nat (i_pos it') = (Z.of_nat (i_pos it) + d)%Z /\
    iter_deref s1 (length (iters s)) = iter_deref s1 k.
Proof.
  intros fuel s k d s1 H. cbn [step] in H.
  apply bind_Ok_inv in H. destruct H as ([it' s'] & HA & H). injection H as <-.
  apply advance_Ok in HA. destruct HA as (it & G1 & G2 & G3 & E1 & E2 & E3). assert (Hk := vget_lt _ _ _ G1).
  assert (L : length (iters s') = length (iters s)) by (rewrite E3; apply upd_length).
  assert (A1 : vget (iters s' ++ [it']) k = Ok it').
  { rewrite vget_app1 by lia. rewrite E3. apply vget_upd_same; auto. }
  assert (A2 : vget (iters s' ++ [it']) (length (iters s)) = Ok it') by (rewrite <- L; apply vget_app_last).
  exists it, it'. cbn [iters]. split; [auto|]. split; [auto|]. split; [auto|]. split.
  - unfold move_pos in G2.
    destruct (Z.leb_spec 0 (Z.of_nat (i_pos it) + d)); [|discriminate].
    destruct (Z.leb_spec (Z.of_nat (i_pos it) + d) (Z.of_nat (length (i_idx it)))); [|discriminate].
    cbn [andb] in G2. injection G2 as G2. rewrite <- G2. lia.
  - unfold iter_deref. cbn [iters]. rewrite A1, A2. reflexivity.
Qed.

(** The loop from begin to end visits what [iterate_batches] describes. *)
Lemma loop_gen : forall o (s : state S) k j itk itj m fuel acc,
  vget (heap s) (i_obj itk) = Ok o -> k <> j ->
  vget (iters s) k = Ok itk -> vget (iters s) j = Ok itj -> i_vec itj = i_vec itk ->
  i_pos itk + m = i_pos itj -> i_pos itj <= length (i_idx itk) -> m < fuel ->
  (let* (s', bs) := iter_loop fuel s k j acc in Ok bs)
  = for_count m (i_pos itk) (fun i acc => let* b := deref_batch o (i_idx itk) i in Ok (acc ++ [b])) acc.
Proof.
  intros o s k j itk itj m. revert s itk. induction m as [|m IH]; intros s itk fuel acc Ho Hne Hk Hj Hv Hp Hl Hf.
  - destruct fuel as [|fuel]; [lia|]. cbn [iter_loop]. unfold iter_eq. rewrite Hk, Hj. cbn [bind].
    rewrite Hv, Nat.eqb_refl. cbn [bind]. replace (Nat.eqb (i_pos itk) (i_pos itj)) with true by (symmetry; apply Nat.eqb_eq; lia).
    reflexivity.
  - destruct fuel as [|fuel]; [lia|]. cbn [iter_loop for_count]. unfold iter_eq. rewrite Hk, Hj. cbn [bind].
    rewrite Hv, Nat.eqb_refl. cbn [bind]. replace (Nat.eqb (i_pos itk) (i_pos itj)) with false by (symmetry; apply Nat.eqb_neq; lia).
    unfold iter_deref. rewrite Hk. cbn [bind]. rewrite Ho. cbn [bind].
    destruct (deref_batch o (i_idx itk) (i_pos itk)) as [b| | | |]; try reflexivity. cbn [bind].
    set (it1 := mkIter (i_vec itk) (i_idx itk) (i_pos itk + 1) (i_obj itk)).
    assert (HA : advance s k 1 = Ok (it1, mkState (heap s) (vars s) (upd (iters s) k it1))).
    { unfold advance. rewrite Hk. cbn [bind]. unfold move_pos.
      destruct (Z.leb_spec 0 (Z.of_nat (i_pos itk) + 1)); [|lia].
      destruct (Z.leb_spec (Z.of_nat (i_pos itk) + 1) (Z.of_nat (length (i_idx itk)))); [|lia].
      cbn [andb bind]. replace (Z.to_nat (Z.of_nat (i_pos itk) + 1)) with (i_pos itk + 1) by lia.
      fold it1. rewrite vset_Ok by (eapply vget_lt; eauto). reflexivity. }
    rewrite HA. cbn [bind].
    assert (Hkl := vget_lt _ _ _ Hk).
    rewrite (IH (mkState (heap s) (vars s) (upd (iters s) k it1)) it1 fuel (acc ++ [b])); cbn [heap iters it1 i_obj i_vec i_pos i_idx]; auto; try lia.
    + replace (i_pos itk + 1) with (Datatypes.S (i_pos itk)) by lia. reflexivity.
    + apply vget_upd_same; auto.
    + rewrite vget_upd_other; auto.
Qed.

Lemma begin_end_loop : forall fuel (s : state S) v s1 s2 n,
  step part fuel s (OpBegin v) = Ok s1 -> step part fuel s1 (OpEnd v) = Ok s2 ->
  exists b, vget (vars s) v = Ok b /\ forall o, view s v = Ok o -> length (b_idx b) <= n ->
  (let* (s', bs) := iter_loop n s2 (length (iters s)) (length (iters s) + 1) [] in Ok bs)
  = iterate_batches o (b_idx b).
Proof.
  intros fuel s v s1 s2 n H1 H2.
  destruct (begin_end_Ok _ _ _ _ _ (or_introl eq_refl) H1) as (b & a & it & Hv & Q & EH & EV & EI & I1 & I2 & I3 & I4 & _).
  destruct (begin_end_Ok _ _ _ _ _ (or_intror eq_refl) H2) as (b' & a' & jt & Hv' & Q' & EH' & EV' & EI' & J1 & J2 & J3 & J4 & J5).
  rewrite EV, Hv in Hv'. injection Hv' as <-. rewrite Q in Q'. injection Q' as <-.
  exists b. split; [auto|]. intros o Ho Hn.
  assert (NE := J5 eq_refl). assert (L : length (b_idx b) <> 0) by (destruct (b_idx b); [congruence|discriminate]).
  assert (Ho' : vget (heap s2) a = Ok o).
  { rewrite EH', EH. unfold view in Ho. rewrite Hv in Ho. cbn [bind] in Ho. unfold deref_quad in Ho. rewrite Q in Ho. exact Ho. }
  assert (L1 : length (iters s1) = length (iters s) + 1) by (rewrite EI, app_length; reflexivity).
  rewrite (loop_gen o s2 (length (iters s)) (length (iters s) + 1) it jt (length (b_idx b) - 1) n []).
  - rewrite I4, I2. unfold iterate_batches, for_range. rewrite Nat.sub_0_r. destruct (b_idx b); [congruence|reflexivity].
  - rewrite I3. exact Ho'.
  - lia.
  - rewrite EI', vget_app1 by lia. rewrite EI. apply vget_app_last.
  - rewrite EI', <- L1. apply vget_app_last.
  - congruence.
  - rewrite I4, J4. lia.
  - rewrite J4, I2. lia.
  - lia.
Qed.
End Heap.
