(** Specification vocabulary for radial partitions: the ranges between neighbouring entries of an index list,
    and when a range is one of a radial grid. *)
From Coq Require Import List Arith Permutation.
From Verif Require Import Base.Scalar Model.Quadrature Model.S2 Model.Composite Model.Partition Spec.QuadSpec Spec.SphereSpec.
Import ListNotations.

(** Neighbouring entries of a list, in order. *)
Definition adjacent {A} (l : list A) : list (A * A) := combine l (tl l).

(** The range [b, e) lies within the first [n] points; with assertions it must not be empty. *)
Definition fits (dbg : bool) (n : nat) (be : nat * nat) : Prop :=
  (if dbg then fst be < snd be else fst be <= snd be) /\ snd be <= n.

(** ** Calls and programs that pass radial grids of one size *)
Section Calls.
Context {S : Scalar}.

(** The (start, angular rule) pairs added by a sequence of calls. *)
Definition adds (cs : list (pcall S)) : list (nat * aquad S) :=
  flat_map (fun c => match c with CAdd _ i q => [(i, q)] | _ => [] end) cs.
(** Every call passes a radial grid of n points and none writes through partition_idx(). *)
Definition call_for (n : nat) (c : pcall S) : Prop :=
  match c with CAdd rn _ _ => rn = n | CFinalize rn => rn = n | CWrite _ => False end.
(** The same for statements; all rules are sized. *)
Definition stmt_for (n : nat) (o : pop S) : Prop :=
  match o with
  | PConstruct rn args => rn = n /\ Forall (fun ia => exists na, sized na (snd ia)) args
  | PCall _ c => call_for n c /\ match c with CAdd _ _ q => exists na, sized na q | _ => True end
  | PGenerate _ r _ => sized n r
  | _ => True
  end.
(** A grid about c that has every shell of r, each with one of the rules qs, in order. *)
Definition every_shell (c : @pt3 S) (r : rquad S) (rs : list (nat * nat)) (qs : list (aquad S)) (g : squad S) : Prop :=
  covers 0 (npts r) rs /\ length rs = length qs /\
  Permutation (nodes g) (flat_map (fun ra => flat_map (fun rw => shell c rw (snd ra))
    (firstn (snd (fst ra) - fst (fst ra)) (skipn (fst (fst ra)) (nodes r)))) (combine rs qs)).
End Calls.
