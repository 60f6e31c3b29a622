(** Facts about the angular lookup tables, for every 64-bit (indeed every integer)
    argument. *)
From Coq Require Import ZArith List Bool Lia.
From Verif Require Import Model.S2Tables Model.S2.
Import ListNotations.
Local Open Scope Z_scope.

(** The tables by family. *)
Definition order_table (f : afam) : list (Z * Z) :=
  match f with
  | AhrensBeylkin => ab_npts_by_order | Delley => de_npts_by_order
  | LebedevLaikov => ll_npts_by_order | Womersley => wo_npts_by_order
  end.
Definition npts_table (f : afam) : list (Z * Z) :=
  match f with
  | AhrensBeylkin => ab_order_by_npts | Delley => de_order_by_npts
  | LebedevLaikov => ll_order_by_npts | Womersley => wo_order_by_npts
  end.
Definition swap (p : Z * Z) : Z * Z := (snd p, fst p).

(** Strictly increasing in both components, all entries positive. *)
Fixpoint mono_from (a b : Z) (l : list (Z * Z)) : bool :=
  match l with
  | [] => true
  | (c, d) :: r => Z.ltb a c && Z.ltb b d && mono_from c d r
  end.
Definition pair_eqb (x y : Z * Z) : bool := Z.eqb (fst x) (fst y) && Z.eqb (snd x) (snd y).
Fixpoint plist_eqb (a b : list (Z * Z)) : bool :=
  match a, b with
  | [], [] => true
  | x :: a', y :: b' => pair_eqb x y && plist_eqb a' b'
  | _, _ => false
  end.

Lemma plist_eqb_eq : forall a b, plist_eqb a b = true -> a = b.
Proof.
  induction a as [|[x y] a IH]; destruct b as [|[u v] b]; simpl; intro H; try discriminate; auto.
  unfold pair_eqb in H; simpl in H. apply andb_prop in H. destruct H as [H1 H2].
  apply andb_prop in H1. destruct H1 as [H0 H1].
  apply Z.eqb_eq in H0, H1. subst. f_equal; auto.
Qed.

Lemma tables_mono : forall f, mono_from 0 0 (order_table f) = true.
Proof. destruct f; vm_compute; reflexivity. Qed.

Lemma tables_swap : forall f, npts_table f = map swap (order_table f).
Proof. destruct f; apply plist_eqb_eq; vm_compute; reflexivity. Qed.

Lemma mono_In : forall l a b k v, mono_from a b l = true -> In (k, v) l -> a < k /\ b < v.
Proof.
  induction l as [|[c d] l IH]; simpl; intros a b k v Hm Hin; [easy|].
  apply andb_prop in Hm. destruct Hm as [Hm1 Hm2].
  apply andb_prop in Hm1. destruct Hm1 as [H1 H2].
  apply Z.ltb_lt in H1, H2. destruct Hin as [E|Hin].
  - injection E as -> ->; lia.
  - apply (IH c d) in Hin; auto. lia.
Qed.

Lemma switch_In : forall l a b k v, mono_from a b l = true -> In (k, v) l -> switch l k = v.
Proof.
  induction l as [|[c d] l IH]; simpl; intros a b k v Hm Hin; [easy|].
  apply andb_prop in Hm. destruct Hm as [Hm1 Hm2].
  destruct Hin as [E|Hin].
  - injection E as -> ->. rewrite Z.eqb_refl; auto.
  - pose proof (mono_In _ _ _ _ _ Hm2 Hin). destruct (Z.eqb_spec k c); [lia|].
    eapply IH; eauto.
Qed.

Lemma switch_inv : forall l k v, switch l k = v -> v <> -1 -> In (k, v) l.
Proof.
  induction l as [|[c d] l IH]; simpl; intros k v H Hv; [congruence|].
  destruct (Z.eqb_spec k c).
  - subst; auto.
  - right; auto.
Qed.

Lemma switch_swap_In : forall l a b k v, mono_from a b l = true -> In (k, v) l ->
  switch (map swap l) v = k.
Proof.
  induction l as [|[c d] l IH]; simpl; intros a b k v Hm Hin; [easy|].
  apply andb_prop in Hm. destruct Hm as [Hm1 Hm2].
  destruct Hin as [E|Hin].
  - injection E as -> ->. rewrite Z.eqb_refl; auto.
  - pose proof (mono_In _ _ _ _ _ Hm2 Hin). destruct (Z.eqb_spec v d); [lia|].
    eapply IH; eauto.
Qed.

Lemma switch_swap_inv : forall l k v, switch (map swap l) v = k -> k <> -1 -> In (k, v) l.
Proof.
  intros l k v H Hk. apply switch_inv in H; auto.
  apply in_map_iff in H. destruct H as ([x y] & E & Hin).
  unfold swap in E; simpl in E. injection E as -> ->. auto.
Qed.

Lemma npts_by_switch : forall f o, npts_by_algebraic_order f o = switch (order_table f) o.
Proof. destruct f; reflexivity. Qed.
Lemma order_by_switch : forall f n,
  algebraic_order_by_npts f n = switch (map swap (order_table f)) n.
Proof. intros f n. rewrite <- tables_swap. destruct f; reflexivity. Qed.

Lemma supported_In : forall f o n,
  npts_by_algebraic_order f o = n -> n <> -1 -> In (o, n) (order_table f).
Proof. intros f o n H Hn. rewrite npts_by_switch in H. apply switch_inv; auto. Qed.

Lemma In_pos : forall f o n, In (o, n) (order_table f) -> 0 < o /\ 0 < n.
Proof. intros f o n H. eapply mono_In; [apply tables_mono|eauto]. Qed.

Lemma In_npts : forall f o n, In (o, n) (order_table f) -> npts_by_algebraic_order f o = n.
Proof. intros f o n H. rewrite npts_by_switch. eapply switch_In; [apply tables_mono|auto]. Qed.

Lemma In_order : forall f o n, In (o, n) (order_table f) -> algebraic_order_by_npts f n = o.
Proof. intros f o n H. rewrite order_by_switch. eapply switch_swap_In; [apply tables_mono|auto]. Qed.

Theorem lookups_inverse : forall f o n,
  (npts_by_algebraic_order f o = n /\ n <> -1) <->
  (algebraic_order_by_npts f n = o /\ o <> -1).
Proof.
  intros f o n. split; intros [H Hn].
  - apply supported_In in H; auto. pose proof (In_pos _ _ _ H).
    split; [eapply In_order; eauto|lia].
  - rewrite order_by_switch in H. apply switch_swap_inv in H; auto.
    pose proof (In_pos _ _ _ H). split; [apply In_npts; auto|lia].
Qed.

Theorem lookups_range : forall f x,
  (npts_by_algebraic_order f x = -1 \/ (0 < x /\ 0 < npts_by_algebraic_order f x)) /\
  (algebraic_order_by_npts f x = -1 \/ (0 < x /\ 0 < algebraic_order_by_npts f x)).
Proof.
  intros f x. split.
  - destruct (Z.eq_dec (npts_by_algebraic_order f x) (-1)) as [E|E]; auto. right.
    eapply In_pos. apply supported_In; eauto.
  - destruct (Z.eq_dec (algebraic_order_by_npts f x) (-1)) as [E|E]; auto. right.
    rewrite order_by_switch in E |- *.
    assert (H : In (switch (map swap (order_table f)) x, x) (order_table f)).
    { apply switch_swap_inv; auto. }
    apply In_pos in H. lia.
Qed.

Lemma mono_pair : forall l a b k v k' v', mono_from a b l = true ->
  In (k, v) l -> In (k', v') l -> k < k' -> v < v'.
Proof.
  induction l as [|[c d] l IH]; simpl; intros a b k v k' v' Hm Hin Hin' Hlt; [easy|].
  apply andb_prop in Hm. destruct Hm as [Hm1 Hm2].
  destruct Hin as [E|Hin], Hin' as [E'|Hin'].
  - injection E as -> ->. injection E' as -> ->. lia.
  - injection E as -> ->. pose proof (mono_In _ _ _ _ _ Hm2 Hin'). lia.
  - injection E' as -> ->. pose proof (mono_In _ _ _ _ _ Hm2 Hin). lia.
  - eapply IH; eauto.
Qed.

Theorem lookups_monotone : forall f o o',
  npts_by_algebraic_order f o <> -1 -> npts_by_algebraic_order f o' <> -1 ->
  o < o' -> npts_by_algebraic_order f o < npts_by_algebraic_order f o'.
Proof.
  intros f o o' H H' Hlt. apply (mono_pair (order_table f) 0 0 o _ o' _ (tables_mono f)).
  - apply supported_In; auto.
  - apply supported_In; auto.
  - auto.
Qed.

(** ** Which orders are supported: explicit lists and closed forms *)
Definition lebedev_orders : list Z :=
  [3; 5; 7; 9; 11; 13; 15; 17; 19; 21; 23; 25; 27; 29; 31; 35; 41; 47; 53; 59; 65; 71; 77;
   83; 89; 95; 101; 107; 113; 119; 131].

Lemma Forall_table : forall f (P : Z -> Z -> bool),
  forallb (fun kv => P (fst kv) (snd kv)) (order_table f) = true ->
  forall o, npts_by_algebraic_order f o <> -1 -> P o (npts_by_algebraic_order f o) = true.
Proof.
  intros f P H o Ho. rewrite forallb_forall in H.
  apply (H (o, npts_by_algebraic_order f o)). apply supported_In; auto.
Qed.

(** An order-L rule with N points has N >= (floor(L/2)+1)^2 (necessary for exactness). *)
Theorem sizes_feasible : forall f o, npts_by_algebraic_order f o <> -1 ->
  (o / 2 + 1) * (o / 2 + 1) <= npts_by_algebraic_order f o.
Proof.
  intros f o H. apply Z.leb_le.
  apply (Forall_table f (fun o n => Z.leb ((o / 2 + 1) * (o / 2 + 1)) n)); auto.
  destruct f; vm_compute; reflexivity.
Qed.

(** Octahedral grids of order L = 6m+5 have (L+1)^2/3 + 2 points. *)
Theorem octahedral_sizes : forall f o, f = LebedevLaikov \/ f = Delley ->
  npts_by_algebraic_order f o <> -1 -> o mod 6 = 5 ->
  npts_by_algebraic_order f o = (o + 1) * (o + 1) / 3 + 2.
Proof.
  intros f o Hf H Hm.
  assert (G : (if Z.eqb (o mod 6) 5
               then Z.eqb (npts_by_algebraic_order f o) ((o + 1) * (o + 1) / 3 + 2) else true) = true).
  { apply (Forall_table f (fun o n => if Z.eqb (o mod 6) 5
               then Z.eqb n ((o + 1) * (o + 1) / 3 + 2) else true)); auto.
    destruct Hf; subst; vm_compute; reflexivity. }
  rewrite Hm in G. simpl in G. apply Z.eqb_eq; auto.
Qed.

Lemma wo_orders : map fst wo_npts_by_order = map Z.of_nat (seq 1 125).
Proof. vm_compute. reflexivity. Qed.

Theorem womersley_orders : forall o,
  npts_by_algebraic_order Womersley o <> -1 <-> 1 <= o <= 125.
Proof.
  intro o. assert (Hin : forall o, In o (map fst wo_npts_by_order) <-> 1 <= o <= 125).
  { intro x. rewrite wo_orders, in_map_iff. split.
    - intros (i & <- & Hi). apply in_seq in Hi. lia.
    - intros Hx. exists (Z.to_nat x). split; [lia|]. apply in_seq. lia. }
  rewrite <- Hin. split.
  - intro H. change o with (fst (o, npts_by_algebraic_order Womersley o)).
    apply in_map. apply (supported_In Womersley); auto.
  - intro H. apply in_map_iff in H. destruct H as ([k v] & E & H). simpl in E. subst k.
    rewrite (In_npts Womersley o v H). apply (In_pos Womersley) in H. lia.
Qed.

Theorem womersley_sizes : forall o, 2 <= o <= 125 -> (Z.even o = true \/ 17 <= o) ->
  npts_by_algebraic_order Womersley o = ((o + 1) * (o + 1) + 1) / 2 + 1.
Proof.
  intros o Ho Hx.
  assert (G : (if Z.leb 2 o && (Z.even o || Z.leb 17 o) then
     Z.eqb (npts_by_algebraic_order Womersley o) (((o + 1) * (o + 1) + 1) / 2 + 1) else true) = true).
  { apply (Forall_table Womersley (fun o n => if Z.leb 2 o && (Z.even o || Z.leb 17 o) then
       Z.eqb n (((o + 1) * (o + 1) + 1) / 2 + 1) else true)); [vm_compute; reflexivity|].
    apply womersley_orders; lia. }
  rewrite (proj2 (Z.leb_le 2 o)) in G by lia.
  replace (Z.even o || Z.leb 17 o) with true in G.
  - simpl in G. apply Z.eqb_eq; auto.
  - symmetry. destruct Hx as [->|Hx]; [reflexivity|].
    rewrite (proj2 (Z.leb_le 17 o)) by lia. apply orb_true_r.
Qed.

(** ** next_algebraic_order *)
Definition supported_order (f : afam) (o : Z) : Prop := npts_by_algebraic_order f o <> -1.

Definition max_order (f : afam) : Z :=
  match f with AhrensBeylkin => 210 | Delley => 101 | LebedevLaikov => 131 | Womersley => 125 end.

Definition next_table (f : afam) : list (Z * Z) :=
  match f with
  | AhrensBeylkin => ab_next_chain | Delley => de_next_chain | LebedevLaikov => ll_next_chain
  | Womersley => []
  end.

Fixpoint chain_from (a : Z) (l : list (Z * Z)) (last : Z) : bool :=
  match l with
  | [] => Z.ltb a last
  | (t, v) :: r => Z.ltb a t && Z.eqb t v && chain_from t r last
  end.

Lemma chain_spec : forall l a last x, chain_from a l last = true -> x <= last ->
  let r := chain l last x in
  x <= r /\ (In r (map fst l) \/ r = last) /\
  (forall s, (In s (map fst l) \/ s = last) -> x <= s -> r <= s).
Proof.
  induction l as [|[t v] l IH]; simpl; intros a last x Hc Hx.
  - split; auto. split; auto. intros s [[]| ->]; lia.
  - apply andb_prop in Hc. destruct Hc as [Hc1 Hc2].
    apply andb_prop in Hc1. destruct Hc1 as [H1 H2].
    apply Z.ltb_lt in H1. apply Z.eqb_eq in H2. subst v.
    destruct (Z.leb_spec x t).
    + split; auto. split; auto. intros s Hs Hxs.
      assert (Hge : forall l b, chain_from b l last = true ->
                forall s, (In s (map fst l) \/ s = last) -> b < s).
      { clear. induction l as [|[t v] l IH]; simpl; intros b Hc s Hs.
        - apply Z.ltb_lt in Hc. destruct Hs as [[]| ->]; auto.
        - apply andb_prop in Hc. destruct Hc as [Hc1 Hc2].
          apply andb_prop in Hc1. destruct Hc1 as [H1 _]. apply Z.ltb_lt in H1.
          destruct Hs as [[->|Hs]|Hs]; auto.
          + apply Z.lt_trans with t; auto.
          + apply Z.lt_trans with t; auto. }
      destruct Hs as [[->|Hs]|Hs]; [lia| |].
      * apply Z.lt_le_incl, (Hge l t); auto.
      * apply Z.lt_le_incl, (Hge l t); auto.
    + destruct (IH t last x Hc2 Hx) as (G1 & G2 & G3).
      split; auto. split.
      * destruct G2; auto.
      * intros s [[->|Hs]|Hs] Hxs; [lia| |]; apply G3; auto.
Qed.

Lemma chain_big : forall l a last x, chain_from a l last = true -> last < x ->
  chain l last x = last.
Proof.
  induction l as [|[t v] l IH]; simpl; intros a last x Hc Hx; auto.
  apply andb_prop in Hc. destruct Hc as [Hc1 Hc2].
  assert (Ht : t < last).
  { clear -Hc2. revert t Hc2. induction l as [|[t' v'] l IH]; simpl; intros t Hc.
    - apply Z.ltb_lt; auto.
    - apply andb_prop in Hc. destruct Hc as [Hc1 Hc2].
      apply andb_prop in Hc1. destruct Hc1 as [H1 _]. apply Z.ltb_lt in H1.
      apply IH in Hc2. lia. }
  destruct (Z.leb_spec x t); [lia|]. eapply IH; eauto.
Qed.

Lemma zlist_eq : forall a b : list Z, (if list_eq_dec Z.eq_dec a b then true else false) = true -> a = b.
Proof. intros a b; destruct (list_eq_dec Z.eq_dec a b); auto; discriminate. Qed.

Lemma next_chains : forall f, f <> Womersley ->
  chain_from 0 (next_table f) (max_order f) = true /\
  map fst (order_table f) = map fst (next_table f) ++ [max_order f] /\
  (forall o, next_algebraic_order f o = chain (next_table f) (max_order f) o).
Proof.
  intros f Hf. destruct f; try congruence;
    (split; [vm_compute; reflexivity|]; split; [apply zlist_eq; vm_compute; reflexivity|]; reflexivity).
Qed.

Lemma supported_fst : forall f o, supported_order f o <-> In o (map fst (order_table f)).
Proof.
  intros f o. unfold supported_order. split.
  - intro H. change o with (fst (o, npts_by_algebraic_order f o)). apply in_map.
    apply supported_In; auto.
  - intro H. apply in_map_iff in H. destruct H as ([k v] & E & H). simpl in E. subst k.
    rewrite (In_npts f o v H). apply In_pos in H. lia.
Qed.

Theorem next_order_spec : forall f o,
  supported_order f (next_algebraic_order f o) /\
  (o <= max_order f ->
     o <= next_algebraic_order f o /\
     forall s, supported_order f s -> o <= s -> next_algebraic_order f o <= s) /\
  (max_order f < o -> next_algebraic_order f o = max_order f) /\
  (forall s, supported_order f s -> s <= max_order f) /\ supported_order f (max_order f).
Proof.
  intros f o.
  assert (D : f = Womersley \/ f <> Womersley) by (destruct f; [right|right|right|left]; congruence).
  destruct D as [->|Hf].
  - assert (HS : forall s, supported_order Womersley s <-> 1 <= s <= 125) by exact womersley_orders.
    unfold next_algebraic_order, max_order. rewrite !HS.
    destruct (Z.ltb_spec o 1); [|destruct (Z.ltb_spec 125 o)];
      (split; [lia|]; split; [intro; split; [lia|]; intros s Hs; apply HS in Hs; lia|];
       split; [lia|]; split; [intros s Hs; apply HS in Hs; lia|lia]).
  - destruct (next_chains f Hf) as (C1 & C2 & C3).
    assert (HS : forall s, supported_order f s <-> (In s (map fst (next_table f)) \/ s = max_order f)).
    { intro s. rewrite supported_fst, C2, in_app_iff. simpl. intuition. }
    assert (Hmax : forall s, supported_order f s -> s <= max_order f).
    { intros s Hs. apply HS in Hs.
      destruct (Z.le_gt_cases s (max_order f)) as [|Hgt]; auto. exfalso.
      destruct Hs as [Hs| ->]; [|lia].
      (* chain keys are below the last value *)
      revert C1 Hs Hgt. generalize (next_table f), (max_order f), 0. clear.
      induction l as [|[t v] l IH]; simpl; intros m a Hc Hin Hgt; [easy|].
      apply andb_prop in Hc. destruct Hc as [_ Hc2]. destruct Hin as [->|Hin].
      - clear IH. revert s Hc2 Hgt. induction l as [|[t' v'] l IH]; simpl; intros s Hc Hgt.
        + apply Z.ltb_lt in Hc; lia.
        + apply andb_prop in Hc. destruct Hc as [Hc1 Hc2].
          apply andb_prop in Hc1. destruct Hc1 as [H1 _]. apply Z.ltb_lt in H1.
          apply (IH t'); auto. lia.
      - eapply IH; eauto. }
    rewrite C3. split; [|split; [|split; [|split]]].
    + apply HS. destruct (Z.le_gt_cases o (max_order f)).
      * destruct (chain_spec _ _ _ o C1 H) as (_ & G & _). exact G.
      * right. eapply chain_big; eauto.
    + intro Ho. destruct (chain_spec _ _ _ o C1 Ho) as (G1 & _ & G3).
      split; auto. intros s Hs. apply G3. apply HS; auto.
    + intro Ho. eapply chain_big; eauto.
    + exact Hmax.
    + apply HS; auto.
Qed.

Theorem next_order_idem : forall f o,
  next_algebraic_order f (next_algebraic_order f o) = next_algebraic_order f o.
Proof.
  intros f o. destruct (next_order_spec f o) as (S1 & _ & _ & Sm & _).
  set (r := next_algebraic_order f o) in *.
  destruct (next_order_spec f r) as (S2 & L & _ & _ & _).
  destruct (L (Sm r S1)) as [L1 L2]. specialize (L2 r S1). lia.
Qed.

Theorem next_order_mono : forall f o o', o <= o' ->
  next_algebraic_order f o <= next_algebraic_order f o'.
Proof.
  intros f o o' H. destruct (next_order_spec f o) as (S1 & L & B & Sm & Smax).
  destruct (next_order_spec f o') as (S1' & L' & B' & _ & _).
  destruct (Z.le_gt_cases o' (max_order f)).
  - destruct L as [_ L]; [lia|]. destruct L' as [L' _]; [lia|].
    apply L; auto. lia.
  - rewrite B' by lia. apply Sm; auto.
Qed.

(** ** Dispatch *)
Definition dispatch_ok (d : list (Z * Z)) : bool :=
  forallb (fun kv => Z.eqb (fst kv) (snd kv)) d.

Lemma select_Some : forall d n m, select d n = Some m -> In (n, m) d.
Proof.
  intros d n m H. unfold select in H.
  destruct (find _ d) as [[k v]|] eqn:E; [|discriminate].
  apply find_some in E. destruct E as [E1 E2]. simpl in *. apply Z.eqb_eq in E2. subst.
  injection H as <-. auto.
Qed.

Lemma select_None : forall d n m, select d n = None -> ~ In (n, m) d.
Proof.
  intros d n m H Hin. unfold select in H.
  destruct (find _ d) as [[k v]|] eqn:E; [discriminate|].
  pose proof (find_none _ _ E _ Hin) as Hn. simpl in Hn. rewrite Z.eqb_refl in Hn. discriminate.
Qed.

(** [generate(n)] selects a data file exactly when n is a supported size, and then
    the file of that size. *)
Theorem dispatch_iff : forall f n m,
  grid_selected f n = Some m <-> (m = n /\ algebraic_order_by_npts f n <> -1).
Proof.
  assert (A : forall f d n m, forallb (fun kv => Z.eqb (fst kv) (snd kv)
                 && negb (Z.eqb (switch (npts_table f) (fst kv)) (-1))) d = true ->
              select d n = Some m -> m = n /\ algebraic_order_by_npts f n <> -1).
  { intros f d n m Hd H. apply select_Some in H. rewrite forallb_forall in Hd.
    specialize (Hd _ H). simpl in Hd. apply andb_prop in Hd. destruct Hd as [H1 H2].
    apply Z.eqb_eq in H1. subst. split; auto.
    rewrite order_by_switch, <- tables_swap. intro E. rewrite E in H2. discriminate. }
  assert (B : forall f d (c : Z -> bool) n, forallb (fun kv => if c (fst kv) then
                 match select d (fst kv) with Some m => Z.eqb m (fst kv) | None => false end else true)
                 (npts_table f) = true ->
              algebraic_order_by_npts f n <> -1 -> c n = true -> select d n = Some n).
  { intros f d c n Hd H Hc. rewrite forallb_forall in Hd.
    assert (Hin : In (n, algebraic_order_by_npts f n) (npts_table f)).
    { rewrite order_by_switch, <- tables_swap in H |- *. apply switch_inv; auto. }
    specialize (Hd _ Hin). simpl in Hd. rewrite Hc in Hd.
    destruct (select d n); [|discriminate]. apply Z.eqb_eq in Hd. subst; auto. }
  intros f n m. split.
  - destruct f; simpl; intro H.
    + eapply (A AhrensBeylkin); [|exact H]; vm_compute; reflexivity.
    + eapply (A Delley); [|exact H]; vm_compute; reflexivity.
    + eapply (A LebedevLaikov); [|exact H]; vm_compute; reflexivity.
    + destruct (Z.leb 2049 n);
        (eapply (A Womersley); [|exact H]; vm_compute; reflexivity).
  - intros [-> H]. destruct f; simpl.
    + apply (B AhrensBeylkin ab_dispatch (fun _ => true)); auto; vm_compute; reflexivity.
    + apply (B Delley de_dispatch (fun _ => true)); auto; vm_compute; reflexivity.
    + apply (B LebedevLaikov ll_dispatch (fun _ => true)); auto; vm_compute; reflexivity.
    + destruct (Z.leb 2049 n) eqn:E.
      * apply (B Womersley wo_dispatch_large (fun n => Z.leb 2049 n)); auto; vm_compute; reflexivity.
      * apply (B Womersley wo_dispatch_small (fun n => negb (Z.leb 2049 n)));
          [vm_compute; reflexivity|exact H|rewrite E; reflexivity].
Qed.

Lemma dispatch_none : forall f n,
  grid_selected f n = None <-> algebraic_order_by_npts f n = -1.
Proof.
  intros f n. split; intro H.
  - destruct (Z.eq_dec (algebraic_order_by_npts f n) (-1)) as [|E]; auto.
    rewrite (proj2 (dispatch_iff f n n) (conj eq_refl E)) in H. discriminate.
  - destruct (grid_selected f n) as [m|] eqn:E; auto.
    apply dispatch_iff in E. destruct E; congruence.
Qed.
