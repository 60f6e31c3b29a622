(** Symmetries of the blocks, of the tabulated grids, and of the grids built from them. *)
From Coq Require Import ZArith List Bool Arith Lia Permutation Reals Lra.
From Flocq Require Import IEEE754.BinarySingleNaN.
From Verif Require Import Base.Outcome Base.Scalar Base.FScalar Base.RScalar Model.Quadrature Model.S2Tables Model.S2 Model.GridCode
  Model.GridsLL Model.GridsDelley Model.GridsAB Model.GridsWomersley Model.Grids Model.Radial Model.Composite Model.Factory
  Spec.QuadSpec Spec.SphereSpec Spec.FactorySpec Spec.SymSpec Proofs.Sizes Proofs.AngularFacts Proofs.S2Facts Proofs.GridShape Proofs.GridRun Proofs.GridFiles
  Proofs.PrunedFacts Proofs.CompositeFacts Proofs.CompositeProps Proofs.FactoryFacts Proofs.GridFloat.
Import ListNotations.

(** ** Blocks *)
Lemma lneg_lneg : forall d, lneg (lneg d) = d.
Proof. intros [m e]. unfold lneg. cbn [fst snd]. rewrite Z.opp_involutive. reflexivity. Qed.

Definition var (k : Z) : lit := (k, 0%Z).
Definition shape (b : block) : block :=
  match b with
  | LL6 _ => LL6 (var 1) | LL8 _ => LL8 (var 1) | LL12 _ => LL12 (var 1)
  | LL24 _ _ => LL24 (var 1) (var 2) | LL24o _ _ => LL24o (var 1) (var 2) | LL48 _ _ _ => LL48 (var 1) (var 2) (var 3)
  | DE6 _ => DE6 (var 1) | DE8 _ => DE8 (var 1) | DE12 _ => DE12 (var 1)
  | DE24 _ _ => DE24 (var 1) (var 2) | DE24o _ _ => DE24o (var 1) (var 2) | DE48 _ _ _ => DE48 (var 1) (var 2) (var 3)
  | AB12 _ _ => AB12 (var 1) (var 2)
  | AB60 _ _ _ _ _ _ _ _ _ _ _ _ _ _ _ =>
      AB60 (var 1) (var 2) (var 3) (var 4) (var 5) (var 6) (var 7) (var 8) (var 9) (var 10) (var 11) (var 12) (var 13) (var 14) (var 15)
  end.
Definition vars (b : block) : list lit :=
  match b with
  | LL6 a | LL8 a | LL12 a | DE6 a | DE8 a | DE12 a => [a]
  | LL24 a b | LL24o a b | DE24 a b | DE24o a b | AB12 a b => [a; b]
  | LL48 a b c | DE48 a b c => [a; b; c]
  | AB60 x1 y1 z1 x2 y2 z2 x3 y3 z3 x4 y4 z4 x5 y5 z5 => [x1; y1; z1; x2; y2; z2; x3; y3; z3; x4; y4; z4; x5; y5; z5]
  end.
Definition sub (env : list lit) (d : lit) : lit :=
  match fst d with
  | Z0 => o
  | Zpos p => nth (Pos.to_nat p - 1) env o
  | Zneg p => lneg (nth (Pos.to_nat p - 1) env o)
  end.
Definition map3 {A B} (f : A -> B) (p : A * A * A) : B * B * B := let '(x, y, z) := p in (f x, f y, f z).

Lemma shape_points : forall b, block_points b = map (map3 (sub (vars b))) (block_points (shape b)).
Proof. destruct b; reflexivity. Qed.

Lemma sub_neg : forall env d, sub env (lneg d) = lneg (sub env d).
Proof. intros env [[|p|p] e]; [reflexivity|reflexivity|symmetry; apply lneg_lneg]. Qed.
Lemma act_map3 : forall A B (f : A -> B) na nb g p, (forall x, f (na x) = nb (f x)) -> act nb g (map3 f p) = map3 f (act na g p).
Proof.
  intros A B f na nb [a bx by' bz] [[x y] z] H. unfold act, map3. cbn [sp_axes sp_x sp_y sp_z].
  destruct a; cbn [reorder]; destruct bx, by', bz; rewrite ?H; reflexivity.
Qed.

Definition lit_eqb (a b : lit) : bool := Z.eqb (fst a) (fst b) && Z.eqb (snd a) (snd b).
Definition lit3_eqb (p q : lit3) : bool :=
  let '(x, y, z) := p in let '(x', y', z') := q in lit_eqb x x' && lit_eqb y y' && lit_eqb z z'.
Lemma lit_eqb_eq : forall a b, lit_eqb a b = true -> a = b.
Proof. intros [a e] [b f] H. apply andb_prop in H. destruct H as [H1 H2]. apply Z.eqb_eq in H1, H2. cbn in *. congruence. Qed.
Lemma lit3_eqb_eq : forall a b, lit3_eqb a b = true -> a = b.
Proof.
  intros [[a b] c] [[a' b'] c'] H. unfold lit3_eqb in H. apply andb_prop in H. destruct H as [H H3]. apply andb_prop in H. destruct H as [H1 H2].
  apply lit_eqb_eq in H1, H2, H3. congruence.
Qed.
Fixpoint take (x : lit3) (l : list lit3) : option (list lit3) :=
  match l with
  | [] => None
  | y :: r => if lit3_eqb x y then Some r else match take x r with Some r' => Some (y :: r') | None => None end
  end.
Fixpoint permb (l m : list lit3) : bool :=
  match l with
  | [] => match m with [] => true | _ => false end
  | x :: r => match take x m with Some m' => permb r m' | None => false end
  end.
Lemma take_perm : forall x l r, take x l = Some r -> Permutation (x :: r) l.
Proof.
  induction l as [|y l IH]; intros r H; cbn [take] in H; [discriminate|].
  destruct (lit3_eqb x y) eqn:E.
  - apply lit3_eqb_eq in E. inversion H. subst. apply Permutation_refl.
  - destruct (take x l) as [r'|]; [|discriminate]. inversion H. subst. eapply perm_trans; [apply perm_swap|]. constructor. auto.
Qed.
Lemma permb_perm : forall l m, permb l m = true -> Permutation l m.
Proof.
  induction l as [|x l IH]; intros m H; cbn [permb] in H.
  - destruct m; [constructor|discriminate].
  - destruct (take x m) as [m'|] eqn:E; [|discriminate]. eapply perm_trans; [|apply (take_perm _ _ _ E)]. constructor. auto.
Qed.

Definition all_axes : list axes := [XYZ; XZY; YXZ; YZX; ZXY; ZYX].
Definition all_sp : list signed_perm :=
  flat_map (fun a => flat_map (fun x => flat_map (fun y => map (fun z => mkSP a x y z) [false; true]) [false; true]) [false; true]) all_axes.
Lemma all_sp_in : forall g, In g all_sp.
Proof. intros [a x y z]. destruct a, x, y, z; unfold all_sp; cbn; repeat (first [left; reflexivity | right]). Qed.

Definition tetb (g : signed_perm) : bool :=
  match sp_axes g with XYZ | YZX | ZXY => true | _ => false end && negb (xorb (sp_x g) (xorb (sp_y g) (sp_z g))).
Lemma tetb_iff : forall g, tetb g = true <-> tetrahedral g.
Proof. intros [a x y z]. unfold tetb, tetrahedral. destruct a, x, y, z; cbn; intuition discriminate. Qed.

(** The blocks of the Ahrens-Beylkin files. *)
Definition icosa (b : block) : bool := match b with AB12 _ _ | AB60 _ _ _ _ _ _ _ _ _ _ _ _ _ _ _ => true | _ => false end.
Definition shapes : list block :=
  [LL6 o; LL8 o; LL12 o; LL24 o o; LL24o o o; LL48 o o o; DE6 o; DE8 o; DE12 o; DE24 o o; DE24o o o; DE48 o o o;
   AB12 o o; AB60 o o o o o o o o o o o o o o o].
Lemma shapes_sym : forallb (fun b => forallb (fun g => if negb (icosa b) || tetb g
   then permb (map (act lneg g) (block_points (shape b))) (block_points (shape b)) else true) all_sp) shapes = true.
Proof. vm_compute. reflexivity. Qed.
Lemma shape_sym : forall b g, negb (icosa b) || tetb g = true -> Permutation (map (act lneg g) (block_points (shape b))) (block_points (shape b)).
Proof.
  intros b g H. apply permb_perm. pose proof shapes_sym as A. rewrite forallb_forall in A.
  assert (I : exists b', In b' shapes /\ shape b' = shape b /\ icosa b' = icosa b).
  { destruct b; [exists (LL6 o)|exists (LL8 o)|exists (LL12 o)|exists (LL24 o o)|exists (LL24o o o)|exists (LL48 o o o)|exists (DE6 o)|exists (DE8 o)|exists (DE12 o)
      |exists (DE24 o o)|exists (DE24o o o)|exists (DE48 o o o)|exists (AB12 o o)|exists (AB60 o o o o o o o o o o o o o o o)];
    (split; [unfold shapes; cbn [In]; repeat (first [left; reflexivity | right])|split; reflexivity]). }
  destruct I as (b' & I & E1 & E2). specialize (A _ I). rewrite forallb_forall in A. specialize (A _ (all_sp_in g)).
  cbv beta in A. rewrite E1, E2, H in A. exact A.
Qed.
Lemma block_sym : forall b g, negb (icosa b) || tetb g = true -> Permutation (map (act lneg g) (block_points b)) (block_points b).
Proof.
  intros b g H. rewrite shape_points, map_map. rewrite (map_ext _ (fun p => map3 (sub (vars b)) (act lneg g p))).
  - rewrite <- map_map. apply Permutation_map, shape_sym, H.
  - intro p. apply act_map3. apply sub_neg.
Qed.

(** ** Files *)
Lemma Permutation_flat_map : forall A B (f h : A -> list B) l, (forall x, In x l -> Permutation (f x) (h x)) -> Permutation (flat_map f l) (flat_map h l).
Proof.
  induction l as [|x l IH]; intro H; cbn [flat_map]; [constructor|]. apply Permutation_app; [apply H; left; reflexivity|]. apply IH. intros y Hy. apply H. right. exact Hy.
Qed.
Lemma map_flat_map : forall A B C (k : B -> C) (f : A -> list B) l, map k (flat_map f l) = flat_map (fun x => map k (f x)) l.
Proof. induction l; cbn [flat_map]; [reflexivity|]. rewrite map_app, IHl. reflexivity. Qed.
Lemma combine_app : forall A B (a a' : list A) (b b' : list B), length a = length b -> combine (a ++ a') (b ++ b') = combine a b ++ combine a' b'.
Proof. induction a; destruct b; cbn; intros; try discriminate; auto. f_equal. apply IHa. lia. Qed.
Lemma combine_const : forall A B C D (f : A -> C) (h : B -> D) (w : B) l, combine (map f l) (map h (map (fun _ => w) l)) = map (fun p => (f p, h w)) l.
Proof. induction l; cbn; auto. f_equal. auto. Qed.

Definition coded_sym (g : signed_perm) (c : coded) : Prop := Forall (fun bw => negb (icosa (fst bw)) || tetb g = true) c.

(** What the arithmetic must satisfy. *)
Record sym_arith {S : Scalar} (norm : S -> S) : Prop := mkSA {
  sa_opp : forall x, norm (sopp (norm x)) = norm (sopp x);
  sa_lit : forall d, norm (lit_val (lneg d)) = norm (sopp (lit_val d));
  sa_zero : norm (sopp (@s0 S)) = norm s0;
  sa_mul : forall r x, norm (smul r (norm x)) = norm (smul r x);
  sa_mulopp : forall r x, norm (smul r (sopp x)) = norm (sopp (smul r x));
  sa_add : forall x, norm (sadd x s0) = norm x
}.

Section Sym.
Context {S : Scalar}.
Variable norm : S -> S.
Hypothesis SA : sym_arith norm.

Lemma act_norm : forall g (p q : @pt3 S), norm3 norm p = norm3 norm q -> norm3 norm (act sopp g p) = norm3 norm (act sopp g q).
Proof.
  intros [a bx by' bz] [[x y] z] [[x' y'] z'] H. unfold norm3 in H. injection H as H1 H2 H3.
  assert (N : forall u v : S, norm u = norm v -> norm (sopp u) = norm (sopp v))
    by (intros u v E; rewrite <- (sa_opp norm SA u), <- (sa_opp norm SA v), E; reflexivity).
  assert (F : forall (b : bool) (u v : S), norm u = norm v -> norm (if b then sopp u else u) = norm (if b then sopp v else v)) by (intros [|]; auto).
  unfold act. cbn [sp_axes sp_x sp_y sp_z]. destruct a; cbn [reorder norm3]; rewrite (F bx _ _ H1) || rewrite (F bx _ _ H2) || rewrite (F bx _ _ H3);
    rewrite (F by' _ _ H1) || rewrite (F by' _ _ H2) || rewrite (F by' _ _ H3); rewrite (F bz _ _ H1) || rewrite (F bz _ _ H2) || rewrite (F bz _ _ H3); reflexivity.
Qed.
Lemma act_lit : forall g (p : lit3), norm3 norm (act sopp g (lit3_val p)) = norm3 norm (lit3_val (act lneg g p)).
Proof.
  intros [a bx by' bz] [[x y] z].
  assert (F : forall (b : bool) d, norm (if b then sopp (lit_val d) else lit_val d) = norm (lit_val (if b then lneg d else d)))
    by (intros [|] d; [symmetry; apply (sa_lit norm SA)|reflexivity]).
  unfold act. cbn [sp_axes sp_x sp_y sp_z lit3_val]. destruct a; cbn [reorder norm3 lit3_val]; rewrite !F; reflexivity.
Qed.

Lemma coded_carried : forall (k : S -> S) g c, coded_sym g c ->
  carried sopp norm g (combine (map lit3_val (coded_points c)) (map k (map lit_val (coded_weights c))) : list (@pt3 S * S)).
Proof.
  intros k g c H. unfold carried.
  assert (E : combine (map (lit3_val (S := S)) (coded_points c)) (map k (map lit_val (coded_weights c)))
     = flat_map (fun bw => map (fun p => (lit3_val p, k (lit_val (snd bw)))) (block_points (fst bw))) c).
  { clear H. unfold coded_points, coded_weights. induction c as [|[b w] c IH]; cbn [flat_map fst snd]; [reflexivity|].
    rewrite !map_app, combine_app by (rewrite !map_length; reflexivity). rewrite IH. f_equal.
    rewrite map_map. apply (combine_const _ _ _ _ lit3_val (fun d => k (lit_val d)) w). }
  rewrite E, !map_flat_map. apply Permutation_flat_map. intros [b w] Hb. cbn [fst snd]. rewrite !map_map. cbn [fst snd].
  rewrite (map_ext _ (fun p => (fun q => (norm3 norm (lit3_val q), k (lit_val w))) (act lneg g p))) by (intro p; rewrite act_lit; reflexivity).
  rewrite <- (map_map (act lneg g) (fun q => (norm3 norm (lit3_val q), k (lit_val w)))). apply Permutation_map. apply block_sym.
  unfold coded_sym in H. rewrite Forall_forall in H. apply (H _ Hb).
Qed.

(** ** Quadratures of [generate] *)
Lemma zero_carried : forall g (ps : list (@pt3 S)) (ws : list S), Forall (fun p => p = pt3_0) ps -> carried sopp norm g (combine ps ws).
Proof.
  intros g ps ws H. unfold carried. apply Permutation_refl'. apply map_ext_in. intros [p w] Hp. cbn [fst snd].
  rewrite Forall_forall in H. assert (E : p = pt3_0) by (apply H; apply in_combine_l in Hp; exact Hp). subst p. f_equal.
  assert (F : forall b : bool, norm (if b then sopp (@s0 S) else s0) = norm s0) by (intros [|]; [apply (sa_zero norm SA)|reflexivity]).
  destruct g as [a x y z]. unfold act, pt3_0. cbn [sp_axes sp_x sp_y sp_z]. destruct a; cbn [reorder norm3]; rewrite !F; reflexivity.
Qed.

Lemma by_suffix_in : forall A n (l : list (Z * A)) g, by_suffix n l = Some g -> In g (map snd l).
Proof.
  induction l as [|[k a] l IH]; intros g H; cbn [by_suffix] in H; [discriminate|]. destruct (Z.eqb k n); [|right; auto]. inversion H. left. reflexivity.
Qed.
Definition kinds (c : bool) (l : list (Z * coded)) : bool := forallb (fun g => forallb (fun bw => Bool.eqb (icosa (fst bw)) c) g) (map snd l).
Lemma kinds_sym : forall c l n x g, kinds c l = true -> by_suffix n l = Some x -> (if c then tetb g else true) = true -> coded_sym g x.
Proof.
  intros c l n x g K H T. apply by_suffix_in in H. unfold kinds in K. rewrite forallb_forall in K. specialize (K _ H). unfold coded_sym.
  apply Forall_forall. intros bw Hb. rewrite forallb_forall in K. specialize (K _ Hb). apply eqb_prop in K. rewrite K. destruct c; cbn [negb orb]; auto.
Qed.
Lemma ll_kinds : kinds false ll_grids = true. Proof. vm_compute. reflexivity. Qed.
Lemma de_kinds : kinds false de_grids = true. Proof. vm_compute. reflexivity. Qed.
Lemma ab_kinds : kinds true ab_grids = true. Proof. vm_compute. reflexivity. Qed.

Lemma coded_quad : forall f dbg n g c, algebraic_order_by_npts f (Z.of_nat n) <> (-1)%Z -> csize c = Z.of_nat n -> coded_sym g c ->
  @repo_grids S f (Z.of_nat n) = coded_grid c ->
  exists q : aquad S, construct dbg (s2_generate (@repo_grids S) f n) = Ok q /\ sized n q /\ carried sopp norm g (nodes q).
Proof.
  intros f dbg n g c H Hs Hc E.
  assert (L1 : length (coded_points c) = n) by (apply Nat2Z.inj; rewrite csize_points; exact Hs).
  destruct (angular_supported S dbg repo_grids f n H) as (q & A1 & A2 & A3 & A4).
  { rewrite E. cbn [coded_grid fst]. rewrite map_length. exact L1. }
  { rewrite E. cbn [coded_grid snd]. rewrite map_length, coded_lengths. exact L1. }
  exists q. split; [exact A1|]. split; [exact A2|]. unfold nodes. rewrite A3, A4, E. cbn [coded_grid fst snd]. apply (coded_carried _ g c Hc).
Qed.

Lemma shape_size : forall n s g, shape_ok n s g = true -> csize g = n.
Proof. intros n s g H. unfold shape_ok in H. apply andb_prop in H. destruct H as [H _]. apply andb_prop in H. destruct H as [H _]. apply Z.eqb_eq, H. Qed.

Lemma angular_sym : forall f dbg n g, family_sym f g ->
  exists q : aquad S, construct dbg (s2_generate (@repo_grids S) f n) = Ok q /\ sized n q /\ carried sopp norm g (nodes q).
Proof.
  intros f dbg n g Hf. destruct (Z.eq_dec (algebraic_order_by_npts f (Z.of_nat n)) (-1)) as [U|H].
  { destruct (angular_unsupported S dbg repo_grids f n U) as (q & A1 & A2 & A3 & A4). exists q. split; [exact A1|]. split; [exact A2|]. apply zero_carried. exact A3. }
  destruct f; [| | |contradiction].
  - destruct (table_all _ (fun n g => shape_ok n (ab_pos n) g = true) _ _ ab_files (Z.of_nat n) H) as (c & C1 & C2). apply (coded_quad _ dbg n g c H); [apply (shape_size _ _ _ C2)| |unfold repo_grids; rewrite C1; reflexivity].
    apply (kinds_sym true _ _ _ g ab_kinds C1). apply tetb_iff. exact Hf.
  - destruct (table_all _ (fun n g => oct_ok Delley n g /\ shape_ok n true g = true) _ _ de_files (Z.of_nat n) H) as (c & C1 & _ & C2). apply (coded_quad _ dbg n g c H); [apply (shape_size _ _ _ C2)| |unfold repo_grids; rewrite C1; reflexivity].
    apply (kinds_sym false _ _ _ g de_kinds C1). reflexivity.
  - destruct (table_all _ (fun n g => oct_ok LebedevLaikov n g /\ shape_ok n (ll_pos n) g = true) _ _ ll_files (Z.of_nat n) H) as (c & C1 & _ & C2). apply (coded_quad _ dbg n g c H); [apply (shape_size _ _ _ C2)| |unfold repo_grids; rewrite C1; reflexivity].
    apply (kinds_sym false _ _ _ g ll_kinds C1). reflexivity.
Qed.

(** ** Grids in space *)
Lemma carried_perm : forall g (l l' : list (@pt3 S * S)), Permutation l l' -> carried sopp norm g l' -> carried sopp norm g l.
Proof.
  intros g l l' P C. unfold carried in *. eapply perm_trans; [apply Permutation_map, P|]. eapply perm_trans; [exact C|]. apply Permutation_map, Permutation_sym, P.
Qed.
Lemma carried_flat : forall A g (f : A -> list (@pt3 S * S)) l, (forall x, In x l -> carried sopp norm g (f x)) -> carried sopp norm g (flat_map f l).
Proof. intros A g f l H. unfold carried. rewrite !map_flat_map. apply Permutation_flat_map. exact H. Qed.

Definition knode (r w : S) (uv : @pt3 S * S) : @pt3 S * S :=
  (norm3 norm (map3 (smul r) (fst uv)), smul (smul w (snd uv)) (smul r r)).
Lemma knode_norm : forall r w p v, knode r w (norm3 norm p, v) = knode r w (p, v).
Proof. intros r w [[x y] z] v. unfold knode. cbn [fst snd norm3 map3]. rewrite !(sa_mul norm SA). reflexivity. Qed.
Lemma knode_sphere : forall r w uv, (norm3 norm (fst (sphere_node (s0, s0, s0) (r, w) uv)), snd (sphere_node (s0, s0, s0) (r, w) uv)) = knode r w uv.
Proof. intros r w [[[x y] z] v]. unfold knode, sphere_node. cbn [fst snd norm3 map3]. rewrite !(sa_add norm SA). reflexivity. Qed.
Lemma scale_act : forall r g p, norm3 norm (act sopp g (map3 (smul r) p)) = norm3 norm (map3 (smul r) (act sopp g p)).
Proof.
  intros r [a bx by' bz] [[x y] z].
  assert (F : forall (b : bool) u, norm (if b then sopp (smul r u) else smul r u) = norm (smul r (if b then sopp u else u)))
    by (intros [|] u; [symmetry; apply (sa_mulopp norm SA)|reflexivity]).
  unfold act. cbn [sp_axes sp_x sp_y sp_z map3]. destruct a; cbn [reorder norm3 map3]; rewrite !F; reflexivity.
Qed.

Lemma shell_sym : forall g rw (a : aquad S), carried sopp norm g (nodes a) -> carried sopp norm g (shell (s0, s0, s0) rw a).
Proof.
  intros g [r w] a C. unfold carried, shell in *. rewrite !map_map.
  rewrite (map_ext _ (fun uv => knode r w ((fun pw => (norm3 norm (act sopp g (fst pw)), snd pw)) uv))).
  - rewrite (map_ext (fun uv => (norm3 norm (fst (sphere_node (s0, s0, s0) (r, w) uv)), snd (sphere_node (s0, s0, s0) (r, w) uv)))
                     (fun uv => knode r w ((fun pw => (norm3 norm (fst pw), snd pw)) uv))).
    + rewrite <- (map_map (fun pw => (norm3 norm (act sopp g (fst pw)), snd pw)) (knode r w)), <- (map_map (fun pw => (norm3 norm (fst pw), snd pw)) (knode r w)).
      apply Permutation_map. exact C.
    + intro uv. rewrite knode_sphere. destruct uv. rewrite knode_norm. reflexivity.
  - intros [[[x y] z] v]. cbv beta. cbn [fst snd]. rewrite knode_norm. unfold knode. cbn [fst snd]. rewrite <- scale_act.
    unfold sphere_node. cbn [fst snd map3]. f_equal. apply act_norm. cbn [norm3]. rewrite !(sa_add norm SA). reflexivity.
Qed.

Lemma spherical_sym : forall dbg g nr na (r : rquad S) (a : aquad S), sized nr r -> sized na a -> carried sopp norm g (nodes a) ->
  exists o, spherical_construct dbg r a (s0, s0, s0) = Ok o /\ sized (nr * na) (sph_quad o) /\ carried sopp norm g (nodes (sph_quad o)).
Proof.
  intros dbg g nr na r a Hr Ha C. destruct (spherical_spec dbg nr na r a (s0, s0, s0) Hr Ha) as (o & O1 & _ & O3 & _). exists o. split; [exact O1|]. split; [exact O3|].
  pose proof (sized_wf _ _ _ _ Hr) as Wr. pose proof (sized_wf _ _ _ _ Ha) as Wa. rewrite (spherical_construct_closed dbg r a (s0, s0, s0) Wr Wa) in O1.
  injection O1 as <-. eapply carried_perm; [apply (sph_nodes_shells (s0, s0, s0) r a Wr Wa)|]. apply carried_flat. intros rw _. apply shell_sym, C.
Qed.

Lemma unpruned_sym : forall dbg g rq k (t : rtraits S) f n, In (rq, k) schemes -> rkind_of t = k -> family_sym f g ->
  exists o, generate_grid_unpruned (@repo_grids S) dbg (mkUnpruned rq (Some t) (AQ f) (Z.of_nat n)) = Ok o /\
    sized (rt_npts t * n) (sph_quad o) /\ carried sopp norm g (nodes (sph_quad o)).
Proof.
  intros dbg g rq k t f n Hin Hk Hf. destruct (radial_sized dbg t) as (r & R1 & R2). destruct (angular_sym f dbg n g Hf) as (a & A1 & A2 & A3).
  destruct (spherical_sym dbg g _ _ r a R2 A2 A3) as (o & O1 & O2 & O3). exists o. split; [|split; [exact O2|exact O3]].
  unfold generate_grid_unpruned, generate_unpruned_grid. cbn [u_traits u_rq u_aq u_asz]. unfold angular_construct. rewrite Nat2Z.id, A1. cbn [bind].
  rewrite unpruned_impl_eq, (radial_direct dbg rq k t Hin Hk), R1. cbn [bind]. exact O1.
Qed.

Lemma regions_sym : forall dbg f g rs, family_sym f g -> exists quads : list (aquad S),
  Forall2 (fun reg a => construct dbg (s2_generate (@repo_grids S) f (Z.to_nat (r_asz reg))) = Ok a /\ sized (Z.to_nat (r_asz reg)) a) rs quads /\
  Forall (fun a => carried sopp norm g (nodes a)) quads.
Proof.
  intros dbg f g rs Hf. induction rs as [|x rs (quads & Q1 & Q2)]; [exists []; split; constructor|].
  destruct (angular_sym f dbg (Z.to_nat (r_asz x)) g Hf) as (a & A1 & A2 & A3). exists (a :: quads). split; constructor; auto.
Qed.

Lemma pruned_sym : forall dbg g rq k (t : rtraits S) f rs, In (rq, k) schemes -> rkind_of t = k -> (1 <= rt_npts t)%nat -> family_sym f g ->
  Forall (fun r => r_aq r = AQ f) rs -> accepted (rt_npts t) (map r_st rs) ->
  exists o, generate_grid_pruned (@repo_grids S) dbg (mkPruned rq (Some t) rs) = Ok o /\ carried sopp norm g (nodes (sph_quad o)).
Proof.
  intros dbg g rq k t f rs Hin Hk Hn Hf F Hacc. destruct (radial_sized dbg t) as (r & R1 & R2). destruct (regions_sym dbg f g rs Hf) as (quads & Q1 & Q2).
  pose proof (pruned_value (@repo_grids S) dbg rq k t f rs r quads Hin Hk F Hn Hacc R1 R2 Q1) as V. cbv zeta in V. eexists. split; [exact V|].
  cbn [sph_quad]. unfold nodes. cbn [qpoints qweights].
  assert (L : length (map r_st rs) = length quads) by (rewrite map_length; apply (Forall2_length' _ _ _ _ _ Q1)).
  assert (Fq : map fst (combine (map r_st rs) quads : list (nat * aquad S)) = map r_st rs) by (apply map_fst_combine; auto).
  assert (C : covers 0 (rt_npts t) (ranges_of (map r_st rs) (rt_npts t))).
  { destruct (proj2 (partition_accepted_iff (rt_npts t) (combine (map r_st rs) quads : list (nat * aquad S)) Hn)) as (p & P).
    { rewrite Fq. exact Hacc. }
    pose proof (rgp_construct_inv (rt_npts t) _ p Hn P) as (E1 & E2 & E3 & E4 & E5 & E6).
    rewrite <- Fq. apply ranges_cover; auto. destruct (combine (map r_st rs) quads); [congruence|discriminate]. }
  eapply carried_perm; [apply pruned_nodes|].
  - apply (sized_wf _ _ _ _ R2).
  - apply (covers_good _ quads 0 r); [rewrite (sized_npts _ _ _ _ R2); exact C|].
    clear - Q1. induction Q1 as [|x y l l' H]; constructor; auto. apply (sized_wf _ _ _ _ (proj2 H)).
  - apply carried_flat. intros [be a] Hra. apply carried_flat. intros rw _. apply shell_sym. cbn [snd].
    rewrite Forall_forall in Q2. apply Q2. apply in_combine_r in Hra. exact Hra.
Qed.
End Sym.
