(** C53: radial partitions (RadialGridPartition) as objects: any state, any sequence of calls, any program.
    [adjacent], [fits], [adds], [call_for], [stmt_for], [every_shell] in Spec/PartSpec.v. *)
From Coq Require Import List Bool Arith ZArith QArith Lia Permutation.
From Verif Require Import Base.Outcome Base.Scalar Base.QScalar Model.Quadrature Model.S2 Model.Composite Model.Partition
  Spec.QuadSpec Spec.SphereSpec Spec.PartSpec Proofs.Sizes Proofs.Partition.
Import ListNotations.
Local Open Scope nat_scope.

(** Any contents of the two vectors, both builds: with one more index than angular rules and ranges that fit, the
    grid has exactly the shells of the ranges; otherwise a range that does not fit is caught by an assertion (or
    undefined in release builds), and a wrong number of indices is undefined behaviour even with assertions. *)
Theorem C53_any_state : forall (S : Scalar) dbg nr (r : rquad S) idx (qs : list (aquad S)) c,
  sized nr r -> Forall (fun a => exists na, sized na a) qs ->
  let rgs := combine (adjacent idx) qs in
  (Forall (fits dbg nr) (map fst rgs) -> length idx = Datatypes.S (length qs) ->
   exists o, pruned_construct dbg r (mkRgp idx qs) c = Ok o /\ sph_center o = c /\
     sized (list_sum (map (fun ra => (snd (fst ra) - fst (fst ra)) * npts (snd ra)) rgs)) (sph_quad o) /\
     Permutation (nodes (sph_quad o)) (flat_map (fun ra => flat_map (fun rw => shell c rw (snd ra))
       (firstn (snd (fst ra) - fst (fst ra)) (skipn (fst (fst ra)) (nodes r)))) rgs)) /\
  (Forall (fits dbg nr) (map fst rgs) -> length idx <> Datatypes.S (length qs) -> pruned_construct dbg r (mkRgp idx qs) c = UB) /\
  (~ Forall (fits dbg nr) (map fst rgs) -> pruned_construct dbg r (mkRgp idx qs) c = if dbg then AssertFail else UB).
Proof. exact @any_state. Qed.

(** Calls of add_quad and finalize in any order with one radial grid: once finalised, the object is the one the
    constructor makes from the same pairs; never finalised, using it is undefined behaviour. *)
Theorem C53_calls : forall (S : Scalar) n cs (p : rgp S), 1 <= n -> Forall (call_for n) cs -> pcalls_run true cs rgp_empty = Ok p ->
  (In (CFinalize n) cs -> rgp_construct true n (adds cs) = Ok p) /\
  (~ In (CFinalize n) cs -> forall dbg nr (r : rquad S) c, sized nr r -> n <= nr -> Forall (fun ia => exists na, sized na (snd ia)) (adds cs) ->
     pruned_construct dbg r p c = UB).
Proof. exact @calls_construct. Qed.

(** A partition made for n radial points, used with a radial grid of nr points: with fewer points it is caught by
    an assertion; with more, the shells from n on are missing. *)
Theorem C53_other_grid : forall (S : Scalar) dbg n args (p : rgp S) nr (r : rquad S) c, 1 <= n -> rgp_construct true n args = Ok p ->
  Forall (fun ia => exists na, sized na (snd ia)) args -> sized nr r ->
  (n <= nr -> exists o rs, pruned_construct dbg r p c = Ok o /\ sph_center o = c /\ covers 0 n rs /\ map fst rs = map fst args /\
     Permutation (nodes (sph_quad o)) (flat_map (fun ra => flat_map (fun rw => shell c rw (snd ra))
       (firstn (snd (fst ra) - fst (fst ra)) (skipn (fst (fst ra)) (nodes r)))) (combine rs (map snd args)))) /\
  (nr < n -> pruned_construct dbg r p c = if dbg then AssertFail else UB).
Proof. exact @other_grid. Qed.

(** Programs over any number of partition variables (construction, copies, moves, assignments, calls, generation)
    that pass radial grids of one size: every grid they produce has every shell. [left] is what a move assignment
    leaves behind: nothing, the old target or the source. *)
Theorem C53_programs : forall (S : Scalar) left n, 1 <= n -> (forall t p : rgp S, left t p = rgp_empty \/ left t p = t \/ left t p = p) ->
  forall os s', Forall (stmt_for n) os -> prun left true (mkPState [] []) os = Ok s' ->
  Forall (fun g => exists i r rs qs, In (PGenerate i r (sph_center g)) os /\ sized n r /\ every_shell (sph_center g) r rs qs (sph_quad g)) (ps_grids s').
Proof. exact @program0. Qed.

Definition ex_r4 : rquad QS := mkQuad [1; 2; 3; 4]%Q [1; 1; 1; 1]%Q.
Definition ex_a : aquad QS := mkQuad [(0, 0, 1); (0, 0, -1)]%Q [1; 1]%Q.
Definition ex_b : aquad QS := mkQuad [(1, 0, 0)]%Q [1]%Q.

(** Findings: a partition made for 3 radial points and used with 4 gives a grid without the fourth shell, also with
    assertions; a partition that was never finalised, or finalised for two radial grids, is undefined to use. *)
Theorem C53_shells_dropped_refuted : exists args : list (nat * aquad QS),
  (let* p := rgp_construct true 3 args in let* o := pruned_construct true ex_r4 p (0, 0, 0)%Q in Ok (qweights (sph_quad o))) = Ok [1; 4; 9]%Q.
Proof. exists [(0, ex_b)]. vm_compute. reflexivity. Qed.

Theorem C53_unfinalised_refuted : exists cs cs' : list (pcall QS),
  (let* p := pcalls_run true cs rgp_empty in pruned_construct true ex_r4 p (0, 0, 0)%Q) = UB /\
  (let* p := pcalls_run true cs' rgp_empty in pruned_construct true ex_r4 p (0, 0, 0)%Q) = UB /\
  cs = [CAdd 4 0 ex_a; CAdd 4 2 ex_b] /\ cs' = [CAdd 3 0 ex_a; CFinalize 3; CFinalize 4].
Proof. exists [CAdd 4 0 ex_a; CAdd 4 2 ex_b], [CAdd 3 0 ex_a; CFinalize 3; CFinalize 4]. split; [|split; [|split; reflexivity]]; vm_compute; reflexivity. Qed.

(** A program: build by calls, copy, move away, build again, move-assign, generate twice. *)
Definition ex_prog : list (pop QS) :=
  [PNew; PCall 0 (CAdd 4 0 ex_a); PCall 0 (CAdd 4 2 ex_b); PCall 0 (CFinalize 4); PCopy 0; PMove 0; PNew;
   PCall 0 (CAdd 4 0 ex_b); PMoveAssign 3 1; PCall 0 (CFinalize 4); PGenerate 0 ex_r4 (0, 0, 0)%Q; PGenerate 3 ex_r4 (0, 0, 0)%Q].
Example C53_ex : sized 4 ex_r4 /\ sized 2 ex_a /\ sized 1 ex_b /\ Forall (stmt_for 4) ex_prog /\
  (let* s := prun (fun t _ => t) true (mkPState [] []) ex_prog in Ok (map (fun g => qweights (sph_quad g)) (ps_grids s)))
  = Ok [[1; 4; 9; 16]; [1; 4; 1; 4; 9; 16]]%Q /\
  Forall (fits true 4) (map fst (combine (adjacent [0; 2; 4]) [ex_a; ex_b])).
Proof.
  assert (A : sized 2 ex_a) by (apply sized_intro; reflexivity). assert (B : sized 1 ex_b) by (apply sized_intro; reflexivity).
  assert (R : sized 4 ex_r4) by (apply sized_intro; reflexivity).
  split; [exact R|]. split; [exact A|]. split; [exact B|].
  split; [unfold ex_prog; repeat (constructor; [cbn [stmt_for call_for]; first [exact I|exact R|split; [reflexivity|first [exact I|exists 2; exact A|exists 1; exact B]]]|]); constructor|].
  split; [vm_compute; reflexivity|]. repeat constructor.
Qed.

Print Assumptions C53_any_state.
Print Assumptions C53_calls.
Print Assumptions C53_other_grid.
Print Assumptions C53_programs.
Print Assumptions C53_shells_dropped_refuted.
Print Assumptions C53_unfinalised_refuted.
