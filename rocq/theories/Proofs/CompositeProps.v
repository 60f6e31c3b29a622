(** Properties C18-C23 and their real-arithmetic consequences. *)
From Coq Require Import List Bool Arith ZArith Lia Permutation Reals Lra.
From Verif Require Import Base.Outcome Base.OutcomeFacts Base.Scalar Base.RScalar
  Model.Quadrature Model.S2 Model.Composite Spec.QuadSpec Spec.Sums Spec.SphereSpec
  Spec.SphereReal Proofs.Tab Proofs.Sizes Proofs.SumFacts Proofs.CompositeFacts Proofs.PrunedFacts
  Proofs.TraitsFacts.
Import ListNotations.

(** ** C18 *)
Lemma vat_nth : forall A (l : list A) i a, vat l i = Ok a <-> nth_error l i = Some a.
Proof. intros A l i a; unfold vat; destruct (nth_error l i); split; congruence. Qed.

Lemma sized_wf : forall P W n (q : quad P W), sized n q ->
  length (qpoints q) = length (qweights q).
Proof. intros P W n q (_ & H1 & H2 & _). congruence. Qed.
Lemma sized_npts : forall P W n (q : quad P W), sized n q -> npts q = n.
Proof. intros P W n q (H & _). exact H. Qed.

Lemma product_spec : forall P1 W1 P2 W2 P W (opP : P1 -> P2 -> P) (opW : W1 -> W2 -> W)
  dP dW dbg n1 n2 (q1 : quad P1 W1) (q2 : quad P2 W2),
  sized n1 q1 -> sized n2 q2 ->
  exists q, construct dbg (product_generate opP opW dP dW q1 q2) = Ok q /\
    sized (n1 * n2) q /\
    forall i j p1 w1 p2 w2,
      point_at q1 i = Ok p1 -> weight_at q1 i = Ok w1 ->
      point_at q2 j = Ok p2 -> weight_at q2 j = Ok w2 ->
      point_at q (i + j * n1) = Ok (opP p1 p2) /\
      weight_at q (i + j * n1) = Ok (opW w1 w2).
Proof.
  intros. pose proof (sized_wf _ _ _ _ H) as W1'. pose proof (sized_wf _ _ _ _ H0) as W2'.
  rewrite product_closed by auto.
  destruct H as (_ & L1 & L1' & _), H0 as (_ & L2 & L2' & _).
  assert (G : length (grid opP (qpoints q1) (qpoints q2)) = n1 * n2).
  { rewrite grid_length; congruence. }
  assert (G' : length (grid opW (qweights q1) (qweights q2)) = n1 * n2).
  { rewrite grid_length; congruence. }
  rewrite construct_Ok by congruence.
  eexists; split; [reflexivity|]. split; [apply sized_intro; auto|].
  intros i j p1 w1 p2 w2. unfold point_at, weight_at. simpl. rewrite !vat_nth. intros.
  split.
  - rewrite <- L1. apply grid_nth_error; auto.
  - rewrite <- L1'. apply grid_nth_error; auto.
Qed.

Local Open Scope R_scope.

Lemma combine_grid : forall A B C D E F (op : A -> B -> C) (op' : D -> E -> F) la lb ld le,
  length la = length ld -> length lb = length le ->
  combine (grid op la lb) (grid op' ld le)
  = grid (fun ad be => (op (fst ad) (fst be), op' (snd ad) (snd be)))
      (combine la ld) (combine lb le).
Proof.
  intros. revert le H0. induction lb as [|b lb IH]; destruct le as [|e le]; simpl; intro L;
    try discriminate; auto.
  unfold grid in *; simpl. rewrite combine_app by (rewrite !map_length; auto).
  f_equal; auto. clear IH L. revert ld H. induction la; destruct ld; simpl; intros; try discriminate; auto.
  f_equal; auto.
Qed.

Lemma product_sum : forall P1 P2 P (opP : P1 -> P2 -> P) dP dbg n1 n2
  (q1 : quad P1 R) (q2 : quad P2 R),
  sized n1 q1 -> sized n2 q2 ->
  exists q, construct dbg (product_generate opP Rmult dP 0 q1 q2) = Ok q /\
    forall f, integrate f q = integrate (fun x => integrate (fun y => f (opP x y)) q2) q1.
Proof.
  intros. pose proof (sized_wf _ _ _ _ H) as W1'. pose proof (sized_wf _ _ _ _ H0) as W2'.
  rewrite product_closed by auto.
  rewrite construct_Ok by (rewrite !grid_length; congruence).
  eexists; split; [reflexivity|]. intro f. unfold integrate, wsum. simpl.
  rewrite combine_grid by auto. unfold grid.
  rewrite Rsum_flat_map.
  transitivity (Rsum (map (fun b => Rsum (map (fun a => snd a * (snd b * f (opP (fst a) (fst b))))
     (combine (qpoints q1) (qweights q1)))) (combine (qpoints q2) (qweights q2)))).
  - apply Rsum_ext. intros b _. rewrite map_map. apply Rsum_ext. intros a _. simpl. ring.
  - rewrite Rsum_swap. apply Rsum_ext. intros a _. rewrite Rsum_mult_l. reflexivity.
Qed.

Lemma integrate_scal_r : forall P (f : P -> R) c q,
  integrate (fun x => f x * c) q = integrate f q * c.
Proof.
  intros. unfold integrate. rewrite (wsum_ext _ _ (fun x => c * f x)) by (intros; ring).
  rewrite wsum_scal. ring.
Qed.

Lemma product_separable : forall P1 P2 P (opP : P1 -> P2 -> P) dP dbg n1 n2
  (q1 : quad P1 R) (q2 : quad P2 R) (f : P -> R) (g : P1 -> R) (h : P2 -> R),
  sized n1 q1 -> sized n2 q2 ->
  (forall x y, In x (qpoints q1) -> In y (qpoints q2) -> f (opP x y) = g x * h y) ->
  exists q, construct dbg (product_generate opP Rmult dP 0 q1 q2) = Ok q /\
    integrate f q = integrate g q1 * integrate h q2.
Proof.
  intros. destruct (product_sum _ _ _ opP dP dbg n1 n2 q1 q2 H H0) as (q & E & I).
  exists q. split; auto. rewrite I. rewrite <- integrate_scal_r.
  apply wsum_ext. intros x Hx.
  transitivity (wsum (fun y => g x * h y) (qpoints q2) (qweights q2)).
  - apply wsum_ext. intros y Hy. auto.
  - rewrite wsum_scal. reflexivity.
Qed.

Local Close Scope R_scope.

(** ** C19 *)
Lemma nth_error_seg : forall A (l : list A) b k i, i < k ->
  nth_error (firstn k (skipn b l)) i = nth_error l (b + i).
Proof.
  intros A l b k i H. revert k i H. induction b as [|b IH] in l |- *.
  - simpl. intros k i H. revert k i H. induction l as [|x l IHl]; intros.
    + destruct k, i; simpl; auto.
    + destruct k as [|k]; [lia|]. destruct i; simpl; auto. apply IHl. lia.
  - destruct l; simpl; intros k i H.
    + destruct k, i; auto.
    + apply IH; auto.
Qed.

Lemma subquad_spec : forall P W dbg n b e (q : quad P W), sized n q -> b < e -> e <= n ->
  exists s, construct dbg (subquad_generate dbg b e q) = Ok s /\ sized (e - b) s /\
    forall i, i < e - b ->
      point_at s i = point_at q (b + i) /\ weight_at s i = weight_at q (b + i).
Proof.
  intros P W dbg n b e q Hq H1 H2. pose proof (sized_wf _ _ _ _ Hq) as Hw.
  destruct Hq as (N & L & L' & _).
  rewrite subquad_Ok by (auto; lia).
  assert (E : length (firstn (e - b) (skipn b (qpoints q))) = e - b).
  { rewrite firstn_length, skipn_length; lia. }
  assert (E' : length (firstn (e - b) (skipn b (qweights q))) = e - b).
  { rewrite firstn_length, skipn_length; lia. }
  rewrite construct_Ok by congruence. eexists; split; [reflexivity|].
  split; [apply sized_intro; auto|]. intros i Hi. unfold point_at, weight_at, vat. simpl.
  rewrite !nth_error_seg by auto. auto.
Qed.

Lemma subquad_iff : forall P W n b e (q : quad P W), sized n q ->
  (b < e /\ e <= n <-> exists s, construct true (subquad_generate true b e q) = Ok s) /\
  (~ (b < e /\ e <= n) -> construct true (subquad_generate true b e q) = AssertFail).
Proof.
  intros P W n b e q H. pose proof (sized_npts _ _ _ _ H) as N. split; [split|].
  - intros [H1 H2]. destruct (subquad_spec P W true n b e q H H1 H2) as (s & E & _). eauto.
  - intros [s Hs]. destruct (le_lt_dec e b) as [Hb|Hb].
    + rewrite subquad_bad in Hs by lia. discriminate.
    + destruct (le_lt_dec e n) as [He|He]; auto. rewrite subquad_bad in Hs by lia. discriminate.
  - intro Hn. rewrite subquad_bad by (rewrite N; auto). reflexivity.
Qed.

Lemma subquad_concat : forall P W dbg n b m e (q : quad P W), sized n q ->
  b < m -> m < e -> e <= n ->
  exists s1 s2 s, construct dbg (subquad_generate dbg b m q) = Ok s1 /\
    construct dbg (subquad_generate dbg m e q) = Ok s2 /\
    construct dbg (subquad_generate dbg b e q) = Ok s /\
    qpoints s = qpoints s1 ++ qpoints s2 /\ qweights s = qweights s1 ++ qweights s2.
Proof.
  intros P W dbg n b m e q Hq H1 H2 H3. pose proof (sized_wf _ _ _ _ Hq) as Hw.
  destruct Hq as (N & L & L' & _).
  rewrite !subquad_Ok by (auto; lia).
  do 3 (rewrite construct_Ok by (rewrite !firstn_length, !skipn_length; congruence)).
  do 3 eexists. split; [reflexivity|]. split; [reflexivity|]. split; [reflexivity|]. simpl.
  rewrite !seg_app by lia. auto.
Qed.

Lemma subquad_whole : forall P W dbg n (q : quad P W), sized n q -> 1 <= n ->
  construct dbg (subquad_generate dbg 0 n q) = Ok q.
Proof.
  intros P W dbg n q Hq H. pose proof (sized_wf _ _ _ _ Hq) as Hw.
  destruct Hq as (N & L & L' & _).
  rewrite subquad_Ok by (auto; lia). rewrite Nat.sub_0_r.
  change (skipn 0 (qpoints q)) with (qpoints q). change (skipn 0 (qweights q)) with (qweights q).
  rewrite !firstn_all2 by lia. rewrite construct_Ok by auto. destruct q; reflexivity.
Qed.

(** ** C20 *)
Section Sph.
Context {S : Scalar}.

Lemma nodes_nth : forall P W (q : quad P W) i p w,
  point_at q i = Ok p -> weight_at q i = Ok w -> nth_error (nodes q) i = Some (p, w).
Proof.
  intros P W [ps ws] i p w. unfold point_at, weight_at, nodes. simpl. rewrite !vat_nth.
  revert ws i. induction ps; destruct ws, i; simpl; intros H H'; try discriminate; auto.
  congruence.
Qed.

Lemma spherical_spec : forall dbg nr na (r : rquad S) (a : aquad S) c,
  sized nr r -> sized na a ->
  exists o, spherical_construct dbg r a c = Ok o /\ sph_center o = c /\
    sized (nr * na) (sph_quad o) /\
    forall i j ri wi uj vj,
      point_at r i = Ok ri -> weight_at r i = Ok wi ->
      point_at a j = Ok uj -> weight_at a j = Ok vj ->
      nth_error (nodes (sph_quad o)) (i + j * nr) = Some (sphere_node c (ri, wi) (uj, vj)).
Proof.
  intros dbg nr na r a c Hr Ha. pose proof (sized_wf _ _ _ _ Hr) as Wr.
  pose proof (sized_wf _ _ _ _ Ha) as Wa.
  rewrite spherical_construct_closed by auto. eexists. split; [reflexivity|].
  split; [reflexivity|].
  destruct (sph_lengths r a Wr Wa) as [L L'].
  rewrite (sized_npts _ _ _ _ Hr), (sized_npts _ _ _ _ Ha) in L, L'.
  split; [apply sized_intro; auto; rewrite map_length; auto|].
  intros. simpl. unfold nodes at 1. simpl. rewrite sph_nodes_grid by auto.
  replace nr with (length (nodes r)).
  2:{ unfold nodes. rewrite combine_length. destruct Hr as (_ & A & B & _). lia. }
  apply grid_nth_error; apply nodes_nth; auto.
Qed.

(** ** C23 *)
Lemma pruned_grid_spec : forall dbg nr (r : rquad S) args (p : rgp S) c, 1 <= nr ->
  sized nr r -> rgp_construct true nr args = Ok p ->
  Forall (fun ia => exists na, sized na (snd ia)) args ->
  exists o rs, pruned_construct dbg r p c = Ok o /\ sph_center o = c /\
    rgp_ranges p = Ok (combine rs (map snd args)) /\ map fst rs = map fst args /\
    covers 0 nr rs /\
    sized (list_sum (map (fun ra => (snd (fst ra) - fst (fst ra)) * npts (snd ra))
                       (combine rs (map snd args)))) (sph_quad o) /\
    Permutation (nodes (sph_quad o))
      (flat_map (fun ra => flat_map (fun rw => shell c rw (snd ra))
          (firstn (snd (fst ra) - fst (fst ra)) (skipn (fst (fst ra)) (nodes r))))
        (combine rs (map snd args))).
Proof.
  intros dbg nr r args p c Hn Hr Hp Hargs. pose proof (sized_wf _ _ _ _ Hr) as Wr.
  destruct (partition_covers nr args p Hn Hp) as (rs & R1 & R2 & R3).
  assert (G : Forall (good_region r) (combine rs (map snd args))).
  { apply (covers_good rs (map snd args) 0 r).
    - rewrite (sized_npts _ _ _ _ Hr). auto.
    - apply Forall_forall. intros a Ha. apply in_map_iff in Ha. destruct Ha as (ia & <- & Hia).
      rewrite Forall_forall in Hargs. destruct (Hargs _ Hia) as (na & Hna).
      apply (sized_wf _ _ _ _ Hna). }
  rewrite (pruned_construct_closed dbg r p _ c Wr R1 G).
  eexists. exists rs. split; [reflexivity|]. split; [reflexivity|]. split; [auto|]. split; [auto|].
  split; [auto|]. destruct (flat_lengths r _ Wr G) as [F F']. split.
  - apply sized_intro; [rewrite map_length|]; auto.
  - apply pruned_nodes; auto.
Qed.

Lemma pruned_uniform : forall dbg nr na (r : rquad S) idx (a : aquad S) (p : rgp S) c, 1 <= nr ->
  sized nr r -> sized na a -> rgp_construct true nr (map (fun i => (i, a)) idx) = Ok p ->
  exists o u, pruned_construct dbg r p c = Ok o /\ spherical_construct dbg r a c = Ok u /\
    Permutation (nodes (sph_quad o)) (nodes (sph_quad u)).
Proof.
  intros dbg nr na r idx a p c Hn Hr Ha Hp.
  destruct (pruned_grid_spec dbg nr r _ p c Hn Hr Hp) as (o & rs & O1 & _ & _ & O4' & O5 & _ & O7).
  { apply Forall_forall. intros ia Hia. apply in_map_iff in Hia. destruct Hia as (i & <- & _).
    exists na; auto. }
  assert (O4 : length rs = length (map (fun i => (i, a)) idx))
    by (apply (f_equal (@length nat)) in O4'; rewrite !map_length in O4'; rewrite map_length; auto).
  exists o. rewrite spherical_construct_closed.
  2: apply (sized_wf _ _ _ _ Hr). 2: apply (sized_wf _ _ _ _ Ha).
  eexists. split; [auto|]. split; [reflexivity|]. simpl.
  etransitivity; [exact O7|]. symmetry. etransitivity; [apply sph_nodes_shells|].
  { apply (sized_wf _ _ _ _ Hr). } { apply (sized_wf _ _ _ _ Ha). }
  apply Permutation_refl'.
  assert (E : forall (g : S * S -> list (@pt3 S * S)) (k : (nat * nat) * aquad S -> S * S -> list (@pt3 S * S)),
     (forall be, k (be, a) = g) ->
     flat_map (fun ra : (nat * nat) * aquad S => flat_map (k ra)
       (firstn (snd (fst ra) - fst (fst ra)) (skipn (fst (fst ra)) (nodes r))))
       (combine rs (map snd (map (fun i => (i, a)) idx)))
     = flat_map g (flat_map (fun be => firstn (snd be - fst be) (skipn (fst be) (nodes r))) rs)).
  { intros g k Hk. rewrite map_length in O4. clear -O4 Hk. revert idx O4.
    induction rs as [|be rs IH]; destruct idx; simpl; intro L; try discriminate; auto.
    rewrite flat_map_app, Hk. f_equal. auto. }
  rewrite (covers_concat _ rs 0 nr (nodes r) O5) in E.
  2:{ unfold nodes. rewrite combine_length. destruct Hr as (_ & A & B & _). lia. }
  simpl in E. symmetry. apply E. reflexivity.
Qed.

(** ** C21, any scalar *)
Lemma recenter_spec : forall n (o : sphobj S) c, sized n (sph_quad o) ->
  exists o', recenter c o = Ok o' /\ sized n (sph_quad o') /\
    qweights (sph_quad o') = qweights (sph_quad o) /\
    (pt_eqb c (sph_center o) = true -> o' = o) /\
    (pt_eqb c (sph_center o) = false -> sph_center o' = c /\
       forall i p, point_at (sph_quad o) i = Ok p ->
         point_at (sph_quad o') i =
           Ok (let '(x, y, z) := p in let '(cx, cy, cz) := c in
               let '(ox, oy, oz) := sph_center o in
               (sadd x (ssub cx ox), sadd y (ssub cy oy), sadd z (ssub cz oz)))).
Proof.
  intros n o c Hs. destruct (pt_eqb c (sph_center o)) eqn:E.
  - rewrite recenter_eq by auto. exists o. split; [reflexivity|]. split; [exact Hs|].
    split; [reflexivity|]. split; [reflexivity|]. discriminate.
  - rewrite recenter_ne by auto. eexists. split; [reflexivity|].
    destruct Hs as (A & B & C & D & F).
    split; [apply sized_intro; auto; rewrite map_length; auto|].
    split; [reflexivity|]. split; [discriminate|]. intros _. split; [reflexivity|].
    intros i p. unfold point_at. simpl. rewrite !vat_nth. intro H.
    rewrite nth_error_map, H. simpl. destruct p as [[x y] z], c as [[cx cy] cz].
    destruct (sph_center o) as [[ox oy] oz]. reflexivity.
Qed.
End Sph.

(** ** Real arithmetic *)
Local Open Scope R_scope.

Lemma triple_eq : forall A (x y z x' y' z' : A), x = x' -> y = y' -> z = z' ->
  (x, y, z) = (x', y', z').
Proof. intros; subst; auto. Qed.

Lemma pt_eqb_R : forall a b : @pt3 RS, pt_eqb a b = true <-> a = b.
Proof.
  intros [[x y] z] [[x' y'] z']. unfold pt_eqb. simpl. rewrite !andb_true_iff, !Reqb_eq.
  split; [intros [[-> ->] ->]; auto|]. intro E; injection E; auto.
Qed.

Lemma recenter_R : forall (o : sphobj RS) c,
  recenter c o = Ok (mkSph (mkQuad (map (shift_pt (pt_sub c (sph_center o))) (qpoints (sph_quad o)))
                              (qweights (sph_quad o))) c).
Proof.
  intros o c. destruct (pt_eqb c (sph_center o)) eqn:E.
  - rewrite recenter_eq by auto. apply pt_eqb_R in E. subst c. destruct o as [[ps ws] [[x y] z]].
    simpl. repeat f_equal. rewrite <- (map_id ps) at 1. apply map_ext. intros [[a b] d]. simpl.
    apply triple_eq; rs_ring.
  - apply recenter_ne; auto.
Qed.

Lemma sph_pts_eq : forall (ps ps' : list (@pt3 RS)) ws c, ps = ps' ->
  @Ok (sphobj RS) (mkSph (mkQuad ps ws) c) = Ok (mkSph (mkQuad ps' ws) c).
Proof. intros; subst; auto. Qed.

Lemma recenters_closed : forall cs (o : sphobj RS),
  recenters o cs = Ok (mkSph (mkQuad (map (shift_pt (pt_sub (last cs (sph_center o)) (sph_center o)))
                                  (qpoints (sph_quad o))) (qweights (sph_quad o)))
                         (last cs (sph_center o))).
Proof.
  assert (Z : forall o : sphobj RS, o = mkSph (mkQuad (map (shift_pt (pt_sub (sph_center o) (sph_center o)))
               (qpoints (sph_quad o))) (qweights (sph_quad o))) (sph_center o)).
  { intros [[ps ws] [[x y] z]]. simpl. repeat f_equal. rewrite <- (map_id ps) at 1.
    apply map_ext. intros [[a b] d]. simpl. apply triple_eq; rs_ring. }
  induction cs as [|c cs IH]; intro o.
  - unfold recenters; simpl. f_equal. apply Z.
  - unfold recenters in *. cbn [fold_left bind]. rewrite recenter_R. rewrite IH. clear IH. simpl sph_center.
    replace (last (c :: cs) (sph_center o)) with (last cs c).
    2:{ destruct cs as [|d cs]; auto. change (last (c :: d :: cs) (sph_center o))
          with (last (d :: cs) (sph_center o)). clear. revert d.
        induction cs as [|e cs IH]; intro d; auto. apply (IH e). }
    apply sph_pts_eq. cbn [qpoints sph_quad]. rewrite map_map. apply map_ext. intros [[a b] d].
    destruct (last cs c) as [[lx ly] lz], c as [[cx cy] cz], (sph_center o) as [[ox oy] oz].
    simpl. apply triple_eq; rs_ring.
Qed.

Lemma recenters_spherical : forall dbg nr na (r : rquad RS) (a : aquad RS) c cs,
  sized nr r -> sized na a ->
  (let* o := spherical_construct dbg r a c in recenters o cs)
  = spherical_construct dbg r a (last cs c).
Proof.
  intros dbg nr na r a c cs Hr Ha.
  rewrite !spherical_construct_closed by (eapply sized_wf; eauto).
  cbn [bind]. rewrite recenters_closed. apply sph_pts_eq. cbn [qpoints sph_quad sph_center]. rewrite map_map.
  apply map_ext. intros [[x y] z]. destruct (last cs c) as [[lx ly] lz], c as [[cx cy] cz].
  simpl. apply triple_eq; rs_ring.
Qed.

Lemma recenters_pruned : forall dbg nr (r : rquad RS) args (p : rgp RS) c cs, (1 <= nr)%nat ->
  sized nr r -> rgp_construct true nr args = Ok p ->
  Forall (fun ia => exists na, sized na (snd ia)) args ->
  (let* o := pruned_construct dbg r p c in recenters o cs)
  = pruned_construct dbg r p (last cs c).
Proof.
  intros dbg nr r args p c cs Hn Hr Hp Hargs. pose proof (sized_wf _ _ _ _ Hr) as Wr.
  destruct (partition_covers nr args p Hn Hp) as (rs & R1 & R2 & R3).
  assert (G : Forall (good_region r) (combine rs (map snd args))).
  { apply (covers_good rs (map snd args) 0 r).
    - rewrite (sized_npts _ _ _ _ Hr). auto.
    - apply Forall_forall. intros a Ha. apply in_map_iff in Ha. destruct Ha as (ia & <- & Hia).
      rewrite Forall_forall in Hargs. destruct (Hargs _ Hia) as (na & Hna).
      apply (sized_wf _ _ _ _ Hna). }
  rewrite !(pruned_construct_closed dbg r p _ _ Wr R1 G).
  cbn [bind]. rewrite recenters_closed. apply sph_pts_eq. cbn [qpoints sph_quad sph_center]. rewrite map_map.
  apply map_ext. intros [[x y] z]. destruct (last cs c) as [[lx ly] lz], c as [[cx cy] cz].
  simpl. apply triple_eq; rs_ring.
Qed.

Lemma Rsum_grid : forall A B (g : A -> B -> R) la lb,
  Rsum (grid g la lb) = Rsum (map (fun a => Rsum (map (fun b => g a b) lb)) la).
Proof.
  intros. unfold grid. rewrite <- (map_id (flat_map _ _)), Rsum_flat_map.
  rewrite Rsum_swap. apply Rsum_ext. intros b _. rewrite map_map. reflexivity.
Qed.

Lemma map_grid : forall A B C D (h : C -> D) (op : A -> B -> C) la lb,
  map h (grid op la lb) = grid (fun a b => h (op a b)) la lb.
Proof.
  intros. unfold grid. induction lb; simpl; auto. rewrite map_app, map_map. f_equal; auto.
Qed.

Lemma spherical_sum : forall dbg nr na (r : rquad RS) (a : aquad RS) c,
  sized nr r -> sized na a ->
  exists o, spherical_construct dbg r a c = Ok o /\
    forall f, integrate f (sph_quad o)
      = integrate (fun rad => rad * rad * integrate (fun u => f (at_radius c rad u)) a) r.
Proof.
  intros dbg nr na r a c Hr Ha.
  rewrite spherical_construct_closed by (eapply sized_wf; eauto).
  eexists. split; [reflexivity|]. intro f. unfold integrate at 1, wsum. simpl.
  transitivity (Rsum (map (fun pw : @pt3 RS * R => snd pw * f (fst pw))
    (grid (fun rw uv => @sphere_node RS c rw uv) (nodes r) (nodes a)))).
  { apply (f_equal (fun l => Rsum (map _ l))). apply sph_nodes_grid; eapply sized_wf; eauto. }
  rewrite map_grid, Rsum_grid. unfold integrate, wsum, nodes.
  apply Rsum_ext. intros [ri wi] _. cbn [fst snd].
  transitivity (Rsum (map (fun uv => wi * ri * ri * (snd uv * f (at_radius c ri (fst uv))))
     (combine (qpoints a) (qweights a)))).
  - apply Rsum_ext. intros [u v] _.
    assert (Q : fst (@sphere_node RS c (ri, wi) (u, v)) = at_radius c ri u).
    { destruct c as [[cx cy] cz], u as [[x y] z]. simpl. apply triple_eq; rs_ring. }
    assert (Q' : snd (@sphere_node RS c (ri, wi) (u, v)) = (wi * v) * (ri * ri)).
    { destruct c as [[cx cy] cz], u as [[x y] z]. reflexivity. }
    cbn [fst snd]. transitivity ((wi * v) * (ri * ri) * f (at_radius c ri u)).
    + rewrite <- Q, <- Q'. reflexivity.
    + rs_ring.
  - rewrite Rsum_mult_l. rs_ring.
Qed.

Lemma dist_at_radius : forall c r u, unit_vec u -> dist3 (at_radius c r u) c = Rabs r.
Proof.
  intros [[cx cy] cz] r [[x y] z] Hu. unfold dist3, at_radius, unit_vec in *.
  rewrite <- sqrt_Rsqr_abs. f_equal. unfold Rsqr.
  replace (r * r) with (r * r * (x * x + y * y + z * z)) by (rewrite Hu; ring). ring.
Qed.

Lemma direction_at_radius : forall c r u, r <> 0 ->
  (let '(x, y, z) := at_radius c r u in let '(cx, cy, cz) := c in
   ((x - cx) / r, (y - cy) / r, (z - cz) / r)) = u.
Proof.
  intros [[cx cy] cz] r [[x y] z] Hr. simpl.
  apply triple_eq; rs_field; auto.
Qed.

Lemma spherical_separable : forall dbg nr na (r : rquad RS) (a : aquad RS) c g h,
  sized nr r -> sized na a ->
  (forall rad, In rad (qpoints r) -> 0 < rad) -> (forall u, In u (qpoints a) -> unit_vec u) ->
  exists o, spherical_construct dbg r a c = Ok o /\
    integrate (fun p => g (dist3 p c) * h (direction c p)) (sph_quad o)
    = integrate (fun rad => rad * rad * g rad) r * integrate h a.
Proof.
  intros dbg nr na r a c g h Hr Ha Hpos Hunit.
  destruct (spherical_sum dbg nr na r a c Hr Ha) as (o & E & I). exists o. split; auto.
  rewrite I, <- integrate_scal_r. apply wsum_ext. intros rad Hrad.
  specialize (Hpos rad Hrad).
  rewrite (Rmult_assoc (rad * rad)). apply (f_equal (Rmult (rad * rad))).
  transitivity (wsum (fun u => g rad * h u) (qpoints a) (qweights a)).
  - apply wsum_ext. intros u Hu. specialize (Hunit u Hu).
    assert (D : dist3 (at_radius c rad u) c = rad).
    { rewrite dist_at_radius by auto. apply Rabs_right; lra. }
    rewrite D. f_equal. f_equal. unfold direction. rewrite D.
    rewrite <- (direction_at_radius c rad u) at 2 by lra.
    destruct (at_radius c rad u) as [[x y] z], c as [[cx cy] cz]. reflexivity.
  - rewrite wsum_scal. reflexivity.
Qed.

Lemma spherical_radius : forall dbg nr na (r : rquad RS) (a : aquad RS) c,
  sized nr r -> sized na a ->
  (forall rad, In rad (qpoints r) -> 0 <= rad) -> (forall u, In u (qpoints a) -> unit_vec u) ->
  exists o, spherical_construct dbg r a c = Ok o /\
    forall i j rad p, (j < na)%nat -> point_at r i = Ok rad ->
      point_at (sph_quad o) (i + j * nr) = Ok p -> dist3 p c = rad.
Proof.
  intros dbg nr na r a c Hr Ha Hpos Hunit.
  destruct (spherical_spec dbg nr na r a c Hr Ha) as (o & E & _ & So & N). exists o. split; auto.
  intros i j rad p Hj Hi Hp.
  destruct (proj1 (proj2 (proj2 (proj2 Ha))) j Hj) as [(u & Hu & Hu') (v & Hv & _)].
  assert (Hin : (i < nr)%nat).
  { destruct (le_lt_dec nr i) as [Hle|]; auto.
    destruct Hr as (_ & _ & _ & _ & F). destruct (F i Hle) as [F1 _]. congruence. }
  destruct (proj1 (proj2 (proj2 (proj2 Hr))) i Hin) as [(r' & Hr1 & Hr2) (w & Hw & _)].
  specialize (N i j rad w u v Hi Hw Hu Hv).
  assert (P : p = fst (@sphere_node RS c (rad, w) (u, v))).
  { unfold nodes in N. unfold point_at in Hp. apply vat_nth in Hp.
    assert (G : forall A B (l : list A) (m : list B) k x y, nth_error l k = Some x ->
              nth_error (combine l m) k = Some y -> fst y = x).
    { clear. induction l; destruct m, k; simpl; intros; try discriminate; try congruence.
      - injection H0 as <-. simpl. congruence.
      - eapply IHl; eauto. }
    symmetry. eapply G; eauto. }
  rewrite P. rewrite Hr1 in Hi. injection Hi as ->.
  assert (Q : fst (@sphere_node RS c (rad, w) (u, v)) = at_radius c rad u).
  { destruct c as [[cx cy] cz], u as [[x y] z]. simpl. apply triple_eq; rs_ring. }
  rewrite Q, dist_at_radius.
  - apply Rabs_right. apply Rle_ge, Hpos. eapply nth_error_In; eauto.
  - apply Hunit. eapply nth_error_In; eauto.
Qed.

Lemma integrate_perm : forall P (f : P -> R) (q q' : quad P R),
  Permutation (nodes q) (nodes q') -> integrate f q = integrate f q'.
Proof. intros. apply wsum_perm. exact H. Qed.
