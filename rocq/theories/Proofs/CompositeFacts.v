(** Closed forms of the composite quadratures. *)
From Coq Require Import List Bool Arith ZArith Lia Permutation.
From Verif Require Import Base.Outcome Base.OutcomeFacts Base.Scalar Model.Quadrature
  Model.S2 Model.Composite Spec.QuadSpec Proofs.Tab Proofs.Sizes.
Import ListNotations.

(** ** Product *)
Section Product.
Context {P1 W1 P2 W2 P W : Type}.
Variables (opP : P1 -> P2 -> P) (opW : W1 -> W2 -> W) (dP : P) (dW : W).

Definition grid {A B C} (op : A -> B -> C) (la : list A) (lb : list B) : list C :=
  flat_map (fun b => map (fun a => op a b) la) lb.

Lemma grid_length : forall A B C (op : A -> B -> C) la lb,
  length (grid op la lb) = length la * length lb.
Proof.
  intros; unfold grid; induction lb; simpl; [lia|].
  rewrite app_length, map_length, IHlb; lia.
Qed.

Lemma grid_nth_error : forall A B C (op : A -> B -> C) la lb i j a b,
  nth_error la i = Some a -> nth_error lb j = Some b ->
  nth_error (grid op la lb) (i + j * length la) = Some (op a b).
Proof.
  intros A B C op la lb i j a b Ha. revert j. unfold grid.
  assert (Hi : i < length la) by (apply nth_error_Some; congruence).
  induction lb as [|b0 lb IH]; intros [|j] Hb; simpl in Hb; try discriminate.
  - injection Hb as ->. simpl. rewrite nth_error_app1 by (rewrite map_length; lia).
    rewrite Nat.add_0_r. apply (map_nth_error (fun a0 => op a0 b)); auto.
  - simpl. rewrite nth_error_app2 by (rewrite map_length; lia).
    rewrite map_length. replace (i + (length la + j * length la) - length la)
      with (i + j * length la) by lia. apply IH; auto.
Qed.

Lemma grid_tab : forall A B C (op : A -> B -> C) n m f g,
  grid op (tab n f) (tab m g)
  = tab (n * m) (fun k => op (f (k mod n)) (g (k / n))).
Proof.
  intros A B C op n m f g. unfold grid.
  destruct n as [|n].
  - simpl. induction (tab m g); simpl; auto.
  - set (N := S n). induction m.
    + rewrite Nat.mul_0_r. reflexivity.
    + rewrite tab_S, flat_map_app, IHm. cbn [flat_map]. rewrite app_nil_r.
      rewrite (Nat.mul_succ_r N m), tab_app. f_equal.
      rewrite map_tab. apply tab_ext; intros i Hi.
      rewrite (Nat.add_comm (N * m)), (Nat.mul_comm N m), Nat.mod_add, Nat.div_add by lia.
      rewrite Nat.mod_small, Nat.div_small by lia. reflexivity.
Qed.

Lemma product_tab : forall n1 n2 p1 w1 p2 w2,
  product_generate opP opW dP dW (mkQuad (tab n1 p1) (tab n1 w1)) (mkQuad (tab n2 p2) (tab n2 w2))
  = Ok (tab (n1 * n2) (fun k => opP (p1 (k mod n1)) (p2 (k / n1))),
        tab (n1 * n2) (fun k => opW (w1 (k mod n1)) (w2 (k / n1)))).
Proof.
  intros. unfold product_generate, npts; cbn [qpoints qweights]. rewrite !tab_length.
  rewrite !repeat_tab.
  set (FP := fun k => opP (p1 (k mod n1)) (p2 (k / n1))).
  set (FW := fun k => opW (w1 (k mod n1)) (w2 (k / n1))).
  set (T := n1 * n2).
  set (inv := fun k (a : list P * list W) =>
     a = (tab T (fun x => if x <? k then FP x else dP),
          tab T (fun x => if x <? k then FW x else dW))).
  match goal with |- for_range _ _ ?b _ = _ => set (body := b) end.
  destruct (for_range_ok _ (fun j a => inv (j * n1) a) 0 n2 body
              (tab T (fun _ => dP), tab T (fun _ => dW))) as (a & Ha & Hv).
  - lia.
  - unfold inv. f_equal; apply tab_ext; intros; reflexivity.
  - intros j a Hj Hinv. unfold body.
    match goal with |- context [for_range 0 n1 ?b _] => set (ibody := b) end.
    destruct (for_range_ok _ (fun i a => inv (i + j * n1) a) 0 n1 ibody a)
      as (a' & Ha' & Hv').
    + lia.
    + exact Hinv.
    + intros i a0 Hi ->. unfold ibody.
      assert (Hk : i + j * n1 < T) by (unfold T; nia).
      rewrite !vget_tab by lia. cbn [bind fst snd].
      rewrite !vset_tab by auto. cbn [bind].
      eexists; split; [reflexivity|]. unfold inv.
      assert (HFP : opP (p1 i) (p2 j) = FP (i + j * n1)).
      { unfold FP. rewrite Nat.mod_add, Nat.div_add by lia.
        rewrite Nat.mod_small, Nat.div_small by lia. reflexivity. }
      assert (HFW : opW (w1 i) (w2 j) = FW (i + j * n1)).
      { unfold FW. rewrite Nat.mod_add, Nat.div_add by lia.
        rewrite Nat.mod_small, Nat.div_small by lia. reflexivity. }
      rewrite HFP, HFW.
      f_equal; apply tab_ext; intros x Hx;
        destruct (Nat.eqb_spec x (i + j * n1)); destruct (Nat.ltb_spec x (i + j * n1));
        destruct (Nat.ltb_spec x (S i + j * n1)); try lia; subst; auto.
    + exists a'. split; [exact Ha'|]. exact Hv'.
  - etransitivity; [exact Ha|]. unfold inv in Hv. rewrite Hv.
    f_equal; f_equal; apply tab_ext; intros x Hx;
      destruct (Nat.ltb_spec x (n2 * n1)); auto; unfold T in Hx; lia.
Qed.

Lemma nonempty_default : forall A (l : list A), l = [] \/ exists f, l = tab (length l) f.
Proof. intros A [|x l]; [auto|]. right. eexists. apply (list_tab (x :: l) x). Qed.

Lemma for_range_id : forall T lo hi (body : nat -> T -> outcome T) s,
  (forall i, lo <= i < hi -> body i s = Ok s) -> for_range lo hi body s = Ok s.
Proof.
  intros T lo hi body s H. unfold for_range.
  remember (hi - lo) as k eqn:Hk. revert lo H Hk.
  induction k; intros lo H Hk; simpl; auto.
  rewrite H by lia. simpl. apply IHk; [|lia]. intros; apply H; lia.
Qed.

Lemma product_closed : forall (q1 : quad P1 W1) (q2 : quad P2 W2),
  length (qpoints q1) = length (qweights q1) ->
  length (qpoints q2) = length (qweights q2) ->
  product_generate opP opW dP dW q1 q2
  = Ok (grid opP (qpoints q1) (qpoints q2), grid opW (qweights q1) (qweights q2)).
Proof.
  intros [l1 m1] [l2 m2]; cbn [qpoints qweights]; intros H1 H2.
  destruct (nonempty_default _ l2) as [->|[f2 E2]].
  { destruct m2; [|discriminate]. unfold product_generate, npts; simpl.
    rewrite Nat.mul_0_r. reflexivity. }
  destruct (nonempty_default _ m2) as [->|[g2 F2]].
  { destruct l2; [|discriminate]. unfold product_generate, npts; simpl.
    rewrite Nat.mul_0_r. reflexivity. }
  destruct (nonempty_default _ l1) as [->|[f1 E1]].
  { destruct m1; [|discriminate]. unfold product_generate, npts; simpl.
    rewrite for_range_id by reflexivity. unfold grid.
    assert (forall A B (l : list A), flat_map (fun _ => []) l = @nil B) as Hn
      by (induction l; simpl; auto).
    rewrite !Hn. reflexivity. }
  destruct (nonempty_default _ m1) as [->|[g1 F1]].
  { destruct l1; [|discriminate]. unfold product_generate, npts; simpl.
    rewrite for_range_id by reflexivity. unfold grid.
    assert (forall A B (l : list A), flat_map (fun _ => []) l = @nil B) as Hn
      by (induction l; simpl; auto).
    rewrite !Hn. reflexivity. }
  rewrite <- H1 in F1. rewrite <- H2 in F2.
  remember (length l1) as n1 eqn:Hn1. remember (length l2) as n2 eqn:Hn2.
  rewrite E1, F1, E2, F2.
  rewrite product_tab. rewrite !grid_tab. reflexivity.
Qed.

End Product.

(** ** Sub-quadrature *)
Lemma subquad_Ok : forall P W dbg b e (q : quad P W),
  b < e -> e <= npts q -> length (qpoints q) = length (qweights q) ->
  subquad_generate dbg b e q
  = Ok (firstn (e - b) (skipn b (qpoints q)), firstn (e - b) (skipn b (qweights q))).
Proof.
  intros P W dbg b e q Hbe He Hl. unfold subquad_generate, npts in *.
  rewrite (proj2 (Nat.leb_le b _)) by lia.
  rewrite (proj2 (Nat.leb_le e _)) by lia.
  rewrite (proj2 (Nat.ltb_lt b e)) by lia.
  rewrite (proj2 (Nat.leb_le b e)) by lia.
  rewrite <- Hl.
  rewrite (proj2 (Nat.leb_le e _)) by lia.
  unfold cassert. destruct dbg; reflexivity.
Qed.

Lemma subquad_bad : forall P W b e (q : quad P W),
  ~ (b < e /\ e <= npts q) -> subquad_generate true b e q = AssertFail.
Proof.
  intros P W b e q H. unfold subquad_generate, cassert.
  destruct (Nat.leb_spec b (npts q)); simpl; auto.
  destruct (Nat.leb_spec e (npts q)); simpl; auto.
  destruct (Nat.ltb_spec b e); simpl; auto. exfalso; apply H; lia.
Qed.

Lemma firstn_plus : forall A a b (l : list A),
  firstn (a + b) l = firstn a l ++ firstn b (skipn a l).
Proof.
  induction a; intros b [|x l]; simpl; auto.
  - rewrite firstn_nil; auto.
  - f_equal; apply IHa.
Qed.

Lemma skipn_plus : forall A a b (l : list A), skipn a (skipn b l) = skipn (b + a) l.
Proof.
  intros A a b; revert a; induction b; intros a [|x l]; simpl; auto.
  apply skipn_nil.
Qed.

Lemma seg_app : forall A (l : list A) b m e, b <= m -> m <= e ->
  firstn (m - b) (skipn b l) ++ firstn (e - m) (skipn m l) = firstn (e - b) (skipn b l).
Proof.
  intros A l b m e H1 H2.
  replace (e - b) with ((m - b) + (e - m)) by lia.
  rewrite firstn_plus, skipn_plus. do 3 f_equal. lia.
Qed.

Section Spherical.
Context {S : Scalar}.
Local Open Scope scalar_scope.
Notation pt3 := (@pt3 S).

(** ** shift_grid *)
Lemma shift_grid_closed : forall (ps : list pt3) v,
  shift_grid ps v = Ok (map (shift_pt v) ps).
Proof.
  intros ps v. unfold shift_grid.
  destruct (nonempty_default _ ps) as [->|[f E]]; [reflexivity|].
  remember (length ps) as n eqn:Hn. rewrite E.
  rewrite (update_loop _ n (fun _ p => shift_pt v p) f).
  rewrite map_tab. reflexivity.
Qed.

(** ** apply_r2 *)
Lemma apply_r2_tab : forall nr na (r : nat -> S) (w : nat -> S),
  apply_r2 nr na (tab nr r) (tab (nr * na) w)
  = Ok (tab (nr * na) (fun k => w k * (r (k mod nr)%nat * r (k mod nr)%nat))).
Proof.
  intros nr na r w. unfold apply_r2.
  set (T := (nr * na)%nat).
  set (F := fun k => w k * (r (k mod nr)%nat * r (k mod nr)%nat)).
  set (inv := fun k (a : list S) => a = tab T (fun x => if Nat.ltb x k then F x else w x)).
  match goal with |- for_range _ _ ?b _ = _ => set (body := b) end.
  destruct (for_range_ok _ (fun j a => inv (j * nr)%nat a) 0 na body (tab T w))
    as (a & Ha & Hv).
  - lia.
  - unfold inv. apply tab_ext; intros; reflexivity.
  - intros j a Hj Hinv. unfold body.
    match goal with |- context [for_range 0 nr ?b _] => set (ibody := b) end.
    destruct (for_range_ok _ (fun i a => inv (i + j * nr)%nat a) 0 nr ibody a)
      as (a' & Ha' & Hv').
    + lia.
    + exact Hinv.
    + intros i a0 Hi ->. unfold ibody.
      assert (Hk : (i + j * nr < T)%nat) by (unfold T; nia).
      rewrite !vget_tab by lia. cbn [bind].
      rewrite Nat.ltb_irrefl.
      rewrite vset_tab by auto.
      eexists; split; [reflexivity|]. unfold inv.
      apply tab_ext; intros x Hx.
      destruct (Nat.eqb_spec x (i + j * nr)); destruct (Nat.ltb_spec x (i + j * nr));
        destruct (Nat.ltb_spec x (Datatypes.S i + j * nr)); try lia; auto.
      subst x. unfold F. rewrite Nat.mod_add by lia. rewrite Nat.mod_small by lia. auto.
    + exists a'. split; [exact Ha'|]. exact Hv'.
  - etransitivity; [exact Ha|]. unfold inv in Hv. rewrite Hv.
    f_equal; apply tab_ext; intros x Hx;
      destruct (Nat.ltb_spec x (na * nr)); auto; unfold T in Hx; lia.
Qed.

(** Weight of the spherical product: (w_i * v_j) * (r_i * r_i). *)
Definition sph_wt (rw : S * S) (v : S) : S := snd rw * v * (fst rw * fst rw).

Definition sph_points (r : rquad S) (a : aquad S) : list pt3 :=
  grid scale_pt (qpoints r) (qpoints a).
Definition sph_weights (r : rquad S) (a : aquad S) : list S :=
  grid sph_wt (combine (qpoints r) (qweights r)) (qweights a).

Lemma sph_weighted_closed : forall (r : rquad S) (a : aquad S),
  length (qpoints r) = length (qweights r) ->
  length (qpoints a) = length (qweights a) ->
  (let* (points, weights) := sph_product r a in
   let* weights := apply_r2 (npts r) (npts a) (qpoints r) weights in
   Ok (points, weights)) = Ok (sph_points r a, sph_weights r a).
Proof.
  intros [rp rw] [ap aw] Hr Ha. cbn [qpoints qweights] in Hr, Ha.
  unfold sph_product. rewrite product_closed by auto. cbn [bind qpoints qweights].
  unfold npts, sph_points, sph_weights. cbn [qpoints qweights].
  assert (G : apply_r2 (length rp) (length ap) rp (grid mul_wt rw aw)
              = Ok (grid sph_wt (combine rp rw) aw)).
  { destruct (nonempty_default _ rp) as [->|[f E1]].
    { destruct rw; [|discriminate]. unfold apply_r2; simpl.
      rewrite for_range_id by reflexivity. unfold grid; simpl.
      assert (forall A B (l : list A), flat_map (fun _ => []) l = @nil B) as Hn
        by (induction l; simpl; auto). rewrite !Hn. reflexivity. }
    destruct (nonempty_default _ rw) as [->|[g E2]].
    { destruct rp; [|discriminate]. unfold apply_r2; simpl.
      rewrite for_range_id by reflexivity. unfold grid; simpl.
      assert (forall A B (l : list A), flat_map (fun _ => []) l = @nil B) as Hn
        by (induction l; simpl; auto). rewrite !Hn. reflexivity. }
    destruct (nonempty_default _ aw) as [->|[h E3]].
    { destruct ap; [|discriminate]. reflexivity. }
    rewrite Ha. rewrite <- Hr in E2.
    remember (length rp) as n1 eqn:Hn1. remember (length aw) as n2 eqn:Hn2.
    rewrite E1, E2, E3. rewrite combine_tab. rewrite !grid_tab, apply_r2_tab. reflexivity. }
  rewrite G. reflexivity.
Qed.

Lemma spherical_closed : forall (r : rquad S) (a : aquad S) cen,
  length (qpoints r) = length (qweights r) ->
  length (qpoints a) = length (qweights a) ->
  spherical_generate r a cen
  = Ok (map (shift_pt cen) (sph_points r a), sph_weights r a).
Proof.
  intros r a cen Hr Ha. unfold spherical_generate.
  pose proof (sph_weighted_closed r a Hr Ha) as G.
  destruct (sph_product r a) as [[ps ws]| | | |]; try discriminate G. cbn [bind] in *.
  destruct (apply_r2 _ _ _ ws) as [ws'| | | |]; try discriminate G. cbn [bind] in *.
  injection G as -> ->. rewrite shift_grid_closed. reflexivity.
Qed.

Lemma sph_lengths : forall (r : rquad S) (a : aquad S),
  length (qpoints r) = length (qweights r) ->
  length (qpoints a) = length (qweights a) ->
  length (sph_points r a) = (npts r * npts a)%nat /\
  length (sph_weights r a) = (npts r * npts a)%nat.
Proof.
  intros r a Hr Ha. unfold sph_points, sph_weights, npts. rewrite !grid_length.
  rewrite combine_length, <- Hr, <- Ha, Nat.min_id. auto.
Qed.

Lemma spherical_construct_closed : forall dbg (r : rquad S) (a : aquad S) cen,
  length (qpoints r) = length (qweights r) ->
  length (qpoints a) = length (qweights a) ->
  spherical_construct dbg r a cen
  = Ok (mkSph (mkQuad (map (shift_pt cen) (sph_points r a)) (sph_weights r a)) cen).
Proof.
  intros dbg r a cen Hr Ha. unfold spherical_construct.
  rewrite (spherical_closed r a cen Hr Ha).
  destruct (sph_lengths r a Hr Ha).
  rewrite construct_Ok by (rewrite map_length; congruence). reflexivity.
Qed.

(** ** recenter *)
Lemma recenter_eq : forall c (o : sphobj S), pt_eqb c (sph_center o) = true ->
  recenter c o = Ok o.
Proof. intros c o H; unfold recenter; rewrite H; reflexivity. Qed.

Lemma recenter_ne : forall c (o : sphobj S), pt_eqb c (sph_center o) = false ->
  recenter c o
  = Ok (mkSph (mkQuad (map (shift_pt (pt_sub c (sph_center o))) (qpoints (sph_quad o)))
                      (qweights (sph_quad o))) c).
Proof.
  intros c o H; unfold recenter; rewrite H; cbn [negb].
  rewrite shift_grid_closed. reflexivity.
Qed.

(** ** Radial partitions *)
(** [parts n l]: the ranges delimited by the start indices [l] and the end [n]. *)
Fixpoint ranges_of (idx : list nat) (n : nat) : list (nat * nat) :=
  match idx with
  | [] => []
  | i :: r => (i, match r with [] => n | j :: _ => j end) :: ranges_of r n
  end.

Lemma ranges_of_length : forall l n, length (ranges_of l n) = length l.
Proof. induction l; simpl; intros; auto. Qed.

Lemma rgp_walk_step : forall fuel (p : rgp S) ii qi, rgp_idx p <> [] ->
  rgp_walk (Datatypes.S fuel) p ii qi =
  if Nat.eqb ii (Nat.sub (length (rgp_idx p)) 1) && Nat.eqb qi (length (rgp_quads p))
  then Ok []
  else
    let* i0 := vget (rgp_idx p) ii in
    let* i1 := vget (rgp_idx p) (Nat.add ii 1) in
    let* q := vget (rgp_quads p) qi in
    let* r := rgp_walk fuel p (Datatypes.S ii) (Datatypes.S qi) in
    Ok (((i0, i1), q) :: r).
Proof. intros fuel [[|i idx] qs] ii qi H; [elim H; reflexivity|reflexivity]. Qed.

Lemma pruned_loop_step : forall fuel dbg r (p : rgp S) ii qi acc, rgp_idx p <> [] ->
  pruned_loop (Datatypes.S fuel) dbg r p ii qi acc =
  if Nat.eqb ii (Nat.sub (length (rgp_idx p)) 1) && Nat.eqb qi (length (rgp_quads p))
  then Ok acc
  else
    let* i0 := vget (rgp_idx p) ii in
    let* i1 := vget (rgp_idx p) (Nat.add ii 1) in
    let* a := vget (rgp_quads p) qi in
    let* (sp, sw) := pruned_region dbg r ((i0, i1), a) in
    pruned_loop fuel dbg r p (Datatypes.S ii) (Datatypes.S qi)
      (fst acc ++ sp, snd acc ++ sw).
Proof. intros fuel dbg r [[|i idx] qs] ii qi acc H; [elim H; reflexivity|reflexivity]. Qed.

Lemma rgp_walk_spec : forall (idx : list nat) (qs : list (aquad S)) (n k : nat) fuel,
  length idx = length qs -> (k <= length qs)%nat -> (length qs - k < fuel)%nat ->
  (0 < length idx)%nat ->
  rgp_walk fuel (mkRgp (idx ++ [n]) qs) k k
  = Ok (combine (ranges_of (skipn k idx) n) (skipn k qs)).
Proof.
  intros idx qs n k fuel Hl Hk Hf H0. revert k Hk Hf.
  induction fuel as [|fuel IH]; intros k Hk Hf; [lia|].
  rewrite rgp_walk_step by (simpl; destruct idx; discriminate). cbn [rgp_idx rgp_quads].
  rewrite app_length. simpl length. rewrite Nat.add_sub.
  destruct (Nat.eqb_spec k (length idx)).
  - subst k. rewrite <- Hl, Nat.eqb_refl. simpl.
    rewrite skipn_all. reflexivity.
  - simpl. assert (Hk' : (k < length idx)%nat) by lia.
    destruct (nth_error idx k) as [i|] eqn:Ei; [|apply nth_error_None in Ei; lia].
    destruct (nth_error qs k) as [q|] eqn:Eq; [|apply nth_error_None in Eq; lia].
    unfold vget. rewrite nth_error_app1 by lia. rewrite Ei, Eq. cbn [bind].
    assert (Hsk : skipn k idx = i :: skipn (Datatypes.S k) idx).
    { clear -Ei. revert k Ei. induction idx; intros [|k] Ei; simpl in *; try discriminate.
      - injection Ei as ->; auto. - apply IHidx; auto. }
    assert (Hsq : skipn k qs = q :: skipn (Datatypes.S k) qs).
    { clear -Eq. revert k Eq. induction qs; intros [|k] Ei; simpl in *; try discriminate.
      - injection Ei as ->; auto. - apply IHqs; auto. }
    rewrite Hsk, Hsq.
    rewrite (IH (Datatypes.S k)) by lia.
    destruct (Nat.eq_dec (k + 1) (length idx)) as [He|He].
    + rewrite nth_error_app2 by lia. replace (k + 1 - length idx)%nat with 0%nat by lia.
      cbn [nth_error bind]. rewrite (skipn_all2 idx) by lia. reflexivity.
    + rewrite nth_error_app1 by lia.
      destruct (nth_error idx (k + 1)) as [i'|] eqn:Ei'; [|apply nth_error_None in Ei'; lia].
      cbn [bind].
      assert (Hsk' : skipn (Datatypes.S k) idx = i' :: skipn (Datatypes.S (Datatypes.S k)) idx).
      { clear -Ei'. replace (k + 1)%nat with (Datatypes.S k) in Ei' by lia.
        revert Ei'. generalize (Datatypes.S k) as m. revert i'.
        induction idx; intros i' [|m] Ei'; simpl in *; try discriminate.
        - injection Ei' as ->; auto. - apply IHidx; auto. }
      rewrite Hsk'. reflexivity.
Qed.

(** Start indices accepted by add_quad for [n] radial points. *)
Inductive accepted (n : nat) : list nat -> Prop :=
| acc_one : accepted n [0%nat]
| acc_snoc : forall l i, accepted n l -> (last l 0 < i)%nat -> (i < n - 1 \/ n = 0)%nat ->
    accepted n (l ++ [i]).

End Spherical.
