(** Every size in the lookup tables has a transcribed file, with the right number of points, all on
    the sphere; and what is known of its exactness. *)
From Coq Require Import ZArith List Bool Lia.
From Verif Require Import Model.S2Tables Model.S2 Model.GridCode Model.GridsLL Model.GridsDelley Model.GridsAB
  Model.GridsWomersley Model.Grids Proofs.GridCheck Proofs.GridRun Proofs.GridShape
  Proofs.GridCheckLL Proofs.GridCheckDelley Proofs.GridCheckAB Proofs.GridCheckWom.
Import ListNotations.
Local Open Scope Z_scope.

(** Shape of a coded file, and sign of its weights. *)
Definition shape_ok (n : Z) (s : bool) (g : coded) : bool :=
  (csize g =? n) && coded_sph g && (if s then coded_pos g else coded_neg g).
Definition ll_pos (n : Z) : bool := negb ((n =? 74) || (n =? 230) || (n =? 266)).
Definition ab_pos (n : Z) : bool := negb (n =? 1572).

Definition plain_shape (n : Z) (ps : list lit3) : bool := (Z.of_nat (length ps) =? n) && forallb on_sphere ps.

Lemma table_all : forall (A : Type) (P : Z -> A -> Prop) grids tab,
  Forall (fun p => exists g, by_suffix (fst p) grids = Some g /\ P (fst p) g) tab ->
  forall n, switch tab n <> -1 -> exists g, by_suffix n grids = Some g /\ P n g.
Proof.
  intros A P grids tab H n Hn. induction H as [|[k v] tab (g & G1 & G2) H IH]; cbn [switch] in Hn; [contradiction|].
  destruct (Z.eqb n k) eqn:E; [|apply IH; exact Hn]. apply Z.eqb_eq in E. subst k. exists g. split; auto.
Qed.
(** The same for the entries that satisfy a condition. *)
Lemma table_some : forall (A : Type) (c : Z -> bool) (P : Z -> A -> Prop) grids tab,
  Forall (fun p => c (fst p) = true -> exists g, by_suffix (fst p) grids = Some g /\ P (fst p) g) tab ->
  forall n, switch tab n <> -1 -> c n = true -> exists g, by_suffix n grids = Some g /\ P n g.
Proof.
  intros A c P grids tab H n Hn Hc. induction H as [|[k v] tab G H IH]; cbn [switch] in Hn; [contradiction|].
  destruct (Z.eqb n k) eqn:E; [|apply IH; exact Hn]. apply Z.eqb_eq in E. subst k. exact (G Hc).
Qed.

Ltac here g := apply Forall_cons; [exists g; split; [reflexivity|]; cbn [fst]|].
Ltac some g := apply Forall_cons; [intros _; exists g; split; [reflexivity|]; cbn [fst]|].
Ltac skip := apply Forall_cons; [intro; discriminate|].

Lemma ll_files : Forall (fun p => exists g, by_suffix (fst p) ll_grids = Some g /\
  (oct_ok LebedevLaikov (fst p) g /\ shape_ok (fst p) (ll_pos (fst p)) g = true)) ll_order_by_npts.
Proof.
  here ll_6; [split; [exact ll_6_ok|run]|].
  here ll_14; [split; [exact ll_14_ok|run]|].
  here ll_26; [split; [exact ll_26_ok|run]|].
  here ll_38; [split; [exact ll_38_ok|run]|].
  here ll_50; [split; [exact ll_50_ok|run]|].
  here ll_74; [split; [exact ll_74_ok|run]|].
  here ll_86; [split; [exact ll_86_ok|run]|].
  here ll_110; [split; [exact ll_110_ok|run]|].
  here ll_146; [split; [exact ll_146_ok|run]|].
  here ll_170; [split; [exact ll_170_ok|run]|].
  here ll_194; [split; [exact ll_194_ok|run]|].
  here ll_230; [split; [exact ll_230_ok|run]|].
  here ll_266; [split; [exact ll_266_ok|run]|].
  here ll_302; [split; [exact ll_302_ok|run]|].
  here ll_350; [split; [exact ll_350_ok|run]|].
  here ll_434; [split; [exact ll_434_ok|run]|].
  here ll_590; [split; [exact ll_590_ok|run]|].
  here ll_770; [split; [exact ll_770_ok|run]|].
  here ll_974; [split; [exact ll_974_ok|run]|].
  here ll_1202; [split; [exact ll_1202_ok|run]|].
  here ll_1454; [split; [exact ll_1454_ok|run]|].
  here ll_1730; [split; [exact ll_1730_ok|run]|].
  here ll_2030; [split; [exact ll_2030_ok|run]|].
  here ll_2354; [split; [exact ll_2354_ok|run]|].
  here ll_2702; [split; [exact ll_2702_ok|run]|].
  here ll_3074; [split; [exact ll_3074_ok|run]|].
  here ll_3470; [split; [exact ll_3470_ok|run]|].
  here ll_3890; [split; [exact ll_3890_ok|run]|].
  here ll_4334; [split; [exact ll_4334_ok|run]|].
  here ll_4802; [split; [exact ll_4802_ok|run]|].
  here ll_5810; [split; [exact ll_5810_ok|run]|].
  apply Forall_nil.
Qed.

Lemma de_files : Forall (fun p => exists g, by_suffix (fst p) de_grids = Some g /\
  (oct_ok Delley (fst p) g /\ shape_ok (fst p) true g = true)) de_order_by_npts.
Proof.
  here de_14; [split; [exact de_14_ok|run]|].
  here de_26; [split; [exact de_26_ok|run]|].
  here de_50; [split; [exact de_50_ok|run]|].
  here de_110; [split; [exact de_110_ok|run]|].
  here de_194; [split; [exact de_194_ok|run]|].
  here de_302; [split; [exact de_302_ok|run]|].
  here de_434; [split; [exact de_434_ok|run]|].
  here de_590; [split; [exact de_590_ok|run]|].
  here de_770; [split; [exact de_770_ok|run]|].
  here de_974; [split; [exact de_974_ok|run]|].
  here de_1202; [split; [exact de_1202_ok|run]|].
  here de_1454; [split; [exact de_1454_ok|run]|].
  here de_1730; [split; [exact de_1730_ok|run]|].
  here de_2030; [split; [exact de_2030_ok|run]|].
  here de_2354; [split; [exact de_2354_ok|run]|].
  here de_2702; [split; [exact de_2702_ok|run]|].
  here de_3074; [split; [exact de_3074_ok|run]|].
  here de_3470; [split; [exact de_3470_ok|run]|].
  apply Forall_nil.
Qed.

Lemma ab_files : Forall (fun p => exists g, by_suffix (fst p) ab_grids = Some g /\
  shape_ok (fst p) (ab_pos (fst p)) g = true) ab_order_by_npts.
Proof.
  here ab_72; [run|].
  here ab_132; [run|].
  here ab_192; [run|].
  here ab_312; [run|].
  here ab_372; [run|].
  here ab_432; [run|].
  here ab_492; [run|].
  here ab_552; [run|].
  here ab_612; [run|].
  here ab_672; [run|].
  here ab_732; [run|].
  here ab_792; [run|].
  here ab_912; [run|].
  here ab_972; [run|].
  here ab_1032; [run|].
  here ab_1092; [run|].
  here ab_1272; [run|].
  here ab_1332; [run|].
  here ab_1392; [run|].
  here ab_1512; [run|].
  here ab_1572; [run|].
  here ab_1632; [run|].
  here ab_1692; [run|].
  here ab_1812; [run|].
  here ab_1932; [run|].
  here ab_1992; [run|].
  here ab_2112; [run|].
  here ab_2172; [run|].
  here ab_2232; [run|].
  here ab_2292; [run|].
  here ab_2412; [run|].
  here ab_2472; [run|].
  here ab_2712; [run|].
  here ab_2772; [run|].
  here ab_2832; [run|].
  here ab_3012; [run|].
  here ab_3312; [run|].
  here ab_3372; [run|].
  here ab_3432; [run|].
  here ab_3492; [run|].
  here ab_3612; [run|].
  here ab_3792; [run|].
  here ab_4212; [run|].
  here ab_4332; [run|].
  here ab_4572; [run|].
  here ab_4692; [run|].
  here ab_4992; [run|].
  here ab_5232; [run|].
  here ab_5472; [run|].
  here ab_5592; [run|].
  here ab_5772; [run|].
  here ab_6192; [run|].
  here ab_6312; [run|].
  here ab_6912; [run|].
  here ab_7512; [run|].
  here ab_15012; [run|].
  apply Forall_nil.
Qed.

(** Sizes whose exactness is checked. *)
Definition ab_done (n : Z) : bool := (n <=? 612) && negb (n =? 552).
Definition wo_done (n : Z) : bool := n <=? 222.
Definition wo_here (n : Z) : bool := n <=? 513.

Lemma ab_exact : Forall (fun p => ab_done (fst p) = true -> exists g, by_suffix (fst p) ab_grids = Some g /\
  tet_ok (fst p) g) ab_order_by_npts.
Proof.
  some ab_72; [exact ab_72_ok|].
  some ab_132; [exact ab_132_ok|].
  some ab_192; [exact ab_192_ok|].
  some ab_312; [exact ab_312_ok|].
  some ab_372; [exact ab_372_ok|].
  some ab_432; [exact ab_432_ok|].
  some ab_492; [exact ab_492_ok|].
  skip.
  some ab_612; [exact ab_612_ok|].
  skip.
  skip.
  skip.
  skip.
  skip.
  skip.
  skip.
  skip.
  skip.
  skip.
  skip.
  skip.
  skip.
  skip.
  skip.
  skip.
  skip.
  skip.
  skip.
  skip.
  skip.
  skip.
  skip.
  skip.
  skip.
  skip.
  skip.
  skip.
  skip.
  skip.
  skip.
  skip.
  skip.
  skip.
  skip.
  skip.
  skip.
  skip.
  skip.
  skip.
  skip.
  skip.
  skip.
  skip.
  skip.
  skip.
  skip.
  apply Forall_nil.
Qed.

Lemma wo_files : Forall (fun p => wo_here (fst p) = true -> exists ps, by_suffix (fst p) wo_grids = Some ps /\
  plain_shape (fst p) ps = true) wo_order_by_npts.
Proof.
  some wo_3; [run|].
  some wo_6; [run|].
  some wo_8; [run|].
  some wo_14; [run|].
  some wo_18; [run|].
  some wo_26; [run|].
  some wo_32; [run|].
  some wo_42; [run|].
  some wo_50; [run|].
  some wo_62; [run|].
  some wo_72; [run|].
  some wo_86; [run|].
  some wo_98; [run|].
  some wo_114; [run|].
  some wo_128; [run|].
  some wo_146; [run|].
  some wo_163; [run|].
  some wo_182; [run|].
  some wo_201; [run|].
  some wo_222; [run|].
  some wo_243; [run|].
  some wo_266; [run|].
  some wo_289; [run|].
  some wo_314; [run|].
  some wo_339; [run|].
  some wo_366; [run|].
  some wo_393; [run|].
  some wo_422; [run|].
  some wo_451; [run|].
  some wo_482; [run|].
  some wo_513; [run|].
  skip.
  skip.
  skip.
  skip.
  skip.
  skip.
  skip.
  skip.
  skip.
  skip.
  skip.
  skip.
  skip.
  skip.
  skip.
  skip.
  skip.
  skip.
  skip.
  skip.
  skip.
  skip.
  skip.
  skip.
  skip.
  skip.
  skip.
  skip.
  skip.
  skip.
  skip.
  skip.
  skip.
  skip.
  skip.
  skip.
  skip.
  skip.
  skip.
  skip.
  skip.
  skip.
  skip.
  skip.
  skip.
  skip.
  skip.
  skip.
  skip.
  skip.
  skip.
  skip.
  skip.
  skip.
  skip.
  skip.
  skip.
  skip.
  skip.
  skip.
  skip.
  skip.
  skip.
  skip.
  skip.
  skip.
  skip.
  skip.
  skip.
  skip.
  skip.
  skip.
  skip.
  skip.
  skip.
  skip.
  skip.
  skip.
  skip.
  skip.
  skip.
  skip.
  skip.
  skip.
  skip.
  skip.
  skip.
  skip.
  skip.
  skip.
  skip.
  skip.
  skip.
  skip.
  apply Forall_nil.
Qed.

Lemma wo_exact : Forall (fun p => wo_done (fst p) = true -> exists ps, by_suffix (fst p) wo_grids = Some ps /\
  plain_ok (fst p) ps) wo_order_by_npts.
Proof.
  some wo_3; [exact wo_3_ok|].
  some wo_6; [exact wo_6_ok|].
  some wo_8; [exact wo_8_ok|].
  some wo_14; [exact wo_14_ok|].
  some wo_18; [exact wo_18_ok|].
  some wo_26; [exact wo_26_ok|].
  some wo_32; [exact wo_32_ok|].
  some wo_42; [exact wo_42_ok|].
  some wo_50; [exact wo_50_ok|].
  some wo_62; [exact wo_62_ok|].
  some wo_72; [exact wo_72_ok|].
  some wo_86; [exact wo_86_ok|].
  some wo_98; [exact wo_98_ok|].
  some wo_114; [exact wo_114_ok|].
  some wo_128; [exact wo_128_ok|].
  some wo_146; [exact wo_146_ok|].
  some wo_163; [exact wo_163_ok|].
  some wo_182; [exact wo_182_ok|].
  some wo_201; [exact wo_201_ok|].
  some wo_222; [exact wo_222_ok|].
  skip.
  skip.
  skip.
  skip.
  skip.
  skip.
  skip.
  skip.
  skip.
  skip.
  skip.
  skip.
  skip.
  skip.
  skip.
  skip.
  skip.
  skip.
  skip.
  skip.
  skip.
  skip.
  skip.
  skip.
  skip.
  skip.
  skip.
  skip.
  skip.
  skip.
  skip.
  skip.
  skip.
  skip.
  skip.
  skip.
  skip.
  skip.
  skip.
  skip.
  skip.
  skip.
  skip.
  skip.
  skip.
  skip.
  skip.
  skip.
  skip.
  skip.
  skip.
  skip.
  skip.
  skip.
  skip.
  skip.
  skip.
  skip.
  skip.
  skip.
  skip.
  skip.
  skip.
  skip.
  skip.
  skip.
  skip.
  skip.
  skip.
  skip.
  skip.
  skip.
  skip.
  skip.
  skip.
  skip.
  skip.
  skip.
  skip.
  skip.
  skip.
  skip.
  skip.
  skip.
  skip.
  skip.
  skip.
  skip.
  skip.
  skip.
  skip.
  skip.
  skip.
  skip.
  skip.
  skip.
  skip.
  skip.
  skip.
  skip.
  skip.
  skip.
  skip.
  skip.
  skip.
  apply Forall_nil.
Qed.
