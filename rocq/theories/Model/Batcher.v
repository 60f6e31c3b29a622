(** Model of include/integratorxx/batch/spherical_micro_batcher.hpp.

    The working vector [q] of (point, weight) pairs is a list; iterators into it
    are indices. [std::partition] is a parameter: the standard only fixes its
    result up to the order inside the two halves. *)
From Coq Require Import List Bool Arith ZArith.
From Verif Require Import Base.Outcome Base.Scalar Model.Quadrature Model.S2
  Model.Composite.
Import ListNotations.

Section Batcher.
Context {S : Scalar}.
Local Open Scope scalar_scope.
Notation pt3 := (@pt3 S).

(** spherical_micro_batcher.hpp:31-34 : get_coordinate<I>. *)
Definition coord (k : nat) (p : pt3) : S :=
  let '(x, y, z) := p in
  match k with O => x | 1%nat => y | _ => z end.

(** spherical_micro_batcher.hpp:16-28 : point_in_box(lo, up, pt). *)
Definition point_in_box (lo up pt : pt3) : bool :=
  if (coord 0 up <? coord 0 pt) || (coord 0 pt <? coord 0 lo) then false
  else if (coord 1 up <? coord 1 pt) || (coord 1 pt <? coord 1 lo) then false
  else if (coord 2 up <? coord 2 pt) || (coord 2 pt <? coord 2 lo) then false
  else true.

(** spherical_micro_batcher.hpp:78-83,118-123 : std::minmax_element with comparator [less] on a non-empty sequence: the first
    smallest and the last largest element. *)
Definition minmax_from (x : S) (l : list S) : S * S :=
  fold_left (fun mm y =>
    (if y <? fst mm then y else fst mm,
     if y <? snd mm then snd mm else y)) l (x, x).

(** spherical_micro_batcher.hpp:58-96 (pairs) and 98-136 (points):
    get_box_bounds / get_box_bounds_points. On an empty range minmax_element
    returns the end iterator, whose dereference (l.85-90, l.125-130) is undefined
    behaviour. *)
Definition get_box_bounds (ps : list pt3) : outcome (pt3 * pt3) :=
  match ps with
  | [] => UB
  | p :: r =>
    let '(x0, x1) := minmax_from (coord 0 p) (map (coord 0) r) in
    let '(y0, y1) := minmax_from (coord 1 p) (map (coord 1) r) in
    let '(z0, z1) := minmax_from (coord 2 p) (map (coord 2) r) in
    Ok ((x0, y0, z0), (x1, y1, z1))
  end.

(** spherical_micro_batcher.hpp:48-52 : pw_type. *)
Definition pw : Type := (pt3 * S)%type.

(** std::partition(first, last, pred) on the elements of the range. *)
Variable std_partition : (pw -> bool) -> list pw -> list pw.

(** spherical_micro_batcher.hpp:155-167 : one coordinate's cut points:
    x_part[i] = lo + i*delta for i < npart, x_part[npart] = up. *)
Definition cut (npart : nat) (lo up : S) (i : nat) : S :=
  let delta := (up - lo) / sofN npart in
  if Nat.ltb i npart then lo + sofN i * delta else up.

(** spherical_micro_batcher.hpp:171-180 : the boxes in loop order (i, j, k). *)
Definition sub_boxes (npart : nat) (lo up : pt3) : list (pt3 * pt3) :=
  flat_map (fun i =>
  flat_map (fun j =>
  map (fun k =>
    ((cut npart (coord 0 lo) (coord 0 up) i,
      cut npart (coord 1 lo) (coord 1 up) j,
      cut npart (coord 2 lo) (coord 2 up) k),
     (cut npart (coord 0 lo) (coord 0 up) (i + 1)%nat,
      cut npart (coord 1 lo) (coord 1 up) (j + 1)%nat,
      cut npart (coord 2 lo) (coord 2 up) (k + 1)%nat)))
    (seq 0 npart)) (seq 0 npart)) (seq 0 npart).

(** spherical_micro_batcher.hpp:171-190 : the partition loop over the remaining
    boxes. [st] is partition_its.back(), [rest] the elements in
    [partition_its.back(), pw_batch_end). Returns the rearranged elements and the
    iterators appended. std::partition returns the first element that fails. *)
Fixpoint partition_loop (boxes : list (pt3 * pt3)) (st : nat) (rest : list pw)
  : list pw * list nat :=
  match boxes with
  | [] => (rest, [])
  | (blo, bup) :: bs =>
    let inb := fun e : pw => point_in_box blo bup (fst e) in
    let rest' := std_partition inb rest in
    let k := length (filter inb rest) in
    let '(tail, its) := partition_loop bs (st + k)%nat (skipn k rest') in
    (firstn k rest' ++ tail, (st + k)%nat :: its)
  end.

(** spherical_micro_batcher.hpp:193,574 : std::unique: drop elements equal to their predecessor. *)
Fixpoint std_unique (l : list nat) : list nat :=
  match l with
  | x :: ((y :: _) as r) => if Nat.eqb x y then std_unique r else x :: std_unique r
  | _ => l
  end.

(** spherical_micro_batcher.hpp:142-199 : partition_box(npart, bbox_lo, bbox_up,
    begin, end); [st] is the index of begin, [els] the elements of the range.
    Returns the rearranged range and the iterator list. *)
Definition partition_box (npart : nat) (lo up : pt3) (st : nat) (els : list pw)
  : list pw * list nat :=
  let '(els', its) := partition_loop (sub_boxes npart lo up) st els in
  (els', std_unique (st :: its)).

(** spherical_micro_batcher.hpp:203-213 : partition_box without given bounds. *)
Definition partition_box0 (npart st : nat) (els : list pw)
  : outcome (list pw * list nat) :=
  let* (lo, up) := get_box_bounds (map fst els) in
  Ok (partition_box npart lo up st els).

(** spherical_micro_batcher.hpp:572 : one step of std::sort on iterators (result is determined: they are totally ordered). *)
Fixpoint insert_sorted (x : nat) (l : list nat) : list nat :=
  match l with
  | [] => [x]
  | y :: r => if Nat.leb x y then x :: l else y :: insert_sorted x r
  end.
(** spherical_micro_batcher.hpp:572 : std::sort. *)
Definition std_sort (l : list nat) : list nat := fold_right insert_sorted [] l.

(** spherical_micro_batcher.hpp:579-583 : std::set_union of two sorted ranges: merge, taking common elements once. *)
Fixpoint set_union (a b : list nat) {struct a} : list nat :=
  (fix inner (b : list nat) : list nat :=
     match a, b with
     | [], _ => b
     | _, [] => a
     | x :: a', y :: b' =>
       if Nat.ltb x y then x :: set_union a' b
       else if Nat.ltb y x then y :: inner b'
       else x :: set_union a' b'
     end) b.

(** Elements of the range [st, en) of [q] (the iterator ranges of
    spherical_micro_batcher.hpp:556-564). *)
Definition slice {A} (st en : nat) (q : list A) : list A := firstn (en - st) (skipn st q).
(** spherical_micro_batcher.hpp:556-564 : [q] with its range starting at [st] overwritten in place by [els]. *)
Definition splice {A} (st : nat) (els q : list A) : list A :=
  firstn st q ++ els ++ skipn (st + length els) q.

(** spherical_micro_batcher.hpp:553-569 : the loop over batches in one refinement
    sweep. Reads the old iterator list [its], rearranges [q] inside oversize
    batches, collects the new iterators (in order of insertion). *)
Fixpoint refine_sweep (maxsz : nat) (its : list nat) (q : list pw) (new : list nat)
  : outcome (list pw * list nat) :=
  match its with
  | st :: ((en :: _) as r) =>
    if Nat.ltb maxsz (en - st)
    then
      let els := slice st en q in
      let* (lo, up) := get_box_bounds (map fst els) in
      let npart := if point_in_box lo up (s0, s0, s0) then 3%nat else 2%nat in
      let '(els', bits) := partition_box npart lo up st els in
      refine_sweep maxsz r (splice st els' q) (new ++ bits)
    else refine_sweep maxsz r q new
  | _ => Ok (q, new)
  end.

(** spherical_micro_batcher.hpp:532-534,588-591 : part_counts, and the any_of test
    of l.538-540. *)
Fixpoint any_oversize (maxsz : nat) (its : list nat) : bool :=
  match its with
  | st :: ((en :: _) as r) => Nat.ltb maxsz (en - st) || any_oversize maxsz r
  | _ => false
  end.

(** spherical_micro_batcher.hpp:539-595 : the refinement loop, [fuel] iterations at
    most. *)
Fixpoint refine (fuel maxsz : nat) (its : list nat) (q : list pw)
  : outcome (list pw * list nat) :=
  if any_oversize maxsz its then
    match fuel with
    | O => OutOfFuel
    | Datatypes.S f =>
      let* (q', new) := refine_sweep maxsz its q [] in
      let new' := std_unique (std_sort new) in
      refine f maxsz (set_union its new') q'
    end
  else Ok (q, its).

(** spherical_micro_batcher.hpp:515-632 : generate_batches(). Returns the permuted
    (point, weight) pairs written back to the quadrature (l.621-622) and
    partition_idx (l.625-630). *)
Definition generate_batches (fuel maxsz : nat) (q : list pw)
  : outcome (list pw * list nat) :=
  let* (q', its) := partition_box0 3 0 q in
  refine fuel maxsz its q'.

(** spherical_micro_batcher.hpp:246-249 : the data members of
    SphericalMicroBatcher; [b_quad] is a shared_ptr, here the address of a
    quadrature object in a heap (see Model/Heap.v) or null; [b_vec] names the storage
    of the vector [partition_idx_] whose elements are [b_idx]. *)
Record batcher : Type := mkBatcher {
  b_max : nat;
  b_quad : option nat;
  b_vec : nat;
  b_idx : list nat
}.

(** spherical_micro_batcher.hpp:505 : nbatches() = partition_idx_.size()-1 on
    size_t: an empty index vector gives 2^64-1, modelled as [None]. *)
Definition nbatches (idx : list nat) : option nat :=
  match idx with [] => None | _ => Some (Nat.sub (length idx) 1) end.

(** A dereferenced batch iterator: spherical_micro_batcher.hpp:288-317. *)
Definition deref_batch (o : sphobj S) (idx : list nat) (i : nat)
  : outcome ((pt3 * pt3) * (list pt3 * list S)) :=
  let* st := vget idx i in
  let* en := vget idx (Nat.add i 1) in
  let ps := qpoints (sph_quad o) in
  let ws := qweights (sph_quad o) in
  (* iterator arithmetic past the end of the vectors, or a reversed range, is UB *)
  if Nat.leb st en && Nat.leb en (length ps) && Nat.leb en (length ws) then
    let* box := get_box_bounds (slice st en ps) in
    Ok (box, (slice st en ps, slice st en ws))
  else UB.

(** [static_cast<int>] of a size_t (32-bit int, value modulo 2^32). *)
Definition to_int32 (i : nat) : Z := ((Z.of_nat i + 2 ^ 31) mod 2 ^ 32 - 2 ^ 31)%Z.

(** spherical_micro_batcher.hpp:468-480 : at(i); the offset is cast to int (l.472,479),
    and [begin() + k] for a negative k leaves the vector. *)
Definition batch_at (o : sphobj S) (idx : list nat) (i : nat)
  : outcome ((pt3 * pt3) * (list pt3 * list S)) :=
  let deref := if Z.ltb (to_int32 i) 0 then UB else deref_batch o idx (Z.to_nat (to_int32 i)) in
  match nbatches idx with
  | Some nb => if Nat.leb nb i then Throw ExRuntime else deref
  | None => deref     (* i < 2^64-1 always; then reads out of bounds *)
  end.

(** spherical_micro_batcher.hpp:450-457 with 271,283,305 : [for(auto&& b : batcher)],
    from begin (index 0) to end (index size()-1). *)
Definition iterate_batches (o : sphobj S) (idx : list nat)
  : outcome (list ((pt3 * pt3) * (list pt3 * list S))) :=
  match idx with
  | [] => UB     (* end()-1 of an empty vector *)
  | _ =>
    for_range 0 (Nat.sub (length idx) 1)
      (fun i acc => let* b := deref_batch o idx i in Ok (acc ++ [b])) []
  end.

End Batcher.
Arguments pw : clear implicits.
