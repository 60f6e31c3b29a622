(** Model of include/integratorxx/composite_quadratures/*.hpp (paths below are
    relative to include/integratorxx/composite_quadratures/). *)
From Coq Require Import List Bool Arith ZArith.
From Verif Require Import Base.Outcome Base.Scalar Model.Quadrature Model.S2.
Import ListNotations.

(** product_quadrature.hpp:65-92 : generate(q1, q2) with combination operators for
    points and weights. Loop order: j outer, i inner; target index i + j*npts1. The
    element types of the operands are arbitrary; [dP], [dW] are the value-initialised
    elements of the result vectors (l.72-73). *)
Definition product_generate {P1 W1 P2 W2 P W : Type}
    (opP : P1 -> P2 -> P) (opW : W1 -> W2 -> W) (dP : P) (dW : W)
    (q1 : quad P1 W1) (q2 : quad P2 W2) : outcome (list P * list W) :=
  let npts1 := npts q1 in
  let npts2 := npts q2 in
  let total := npts1 * npts2 in
  for_range 0 npts2
    (fun j a =>
       for_range 0 npts1
         (fun i a =>
            let ij := i + j * npts1 in
            let* p1 := vget (qpoints q1) i in
            let* p2 := vget (qpoints q2) j in
            let* ps := vset (fst a) ij (opP p1 p2) in
            let* w1 := vget (qweights q1) i in
            let* w2 := vget (qweights q2) j in
            let* ws := vset (snd a) ij (opW w1 w2) in
            Ok (ps, ws)) a)
    (repeat dP total, repeat dW total).

(** sub_quadrature.hpp:47-62 : generate((begin,end), quad). The comparisons
    [>= 0] (l.50,52) are vacuous on size_t. With assertions off, copying an
    iterator range beyond the vector, or a reversed range, is undefined behaviour;
    an empty range yields empty vectors. *)
Definition subquad_generate {P W : Type} (dbg : bool) (b e : nat) (q : quad P W)
  : outcome (list P * list W) :=
  let* _ := cassert dbg (b <=? npts q) in
  let* _ := cassert dbg (e <=? npts q) in
  let* _ := cassert dbg (b <? e) in
  if (b <=? e) && (e <=? length (qpoints q)) && (e <=? length (qweights q))
  then Ok (firstn (e - b) (skipn b (qpoints q)),
           firstn (e - b) (skipn b (qweights q)))
  else UB.

Section Spherical.
Context {S : Scalar}.
Local Open Scope scalar_scope.
Notation pt3 := (@pt3 S).
Notation pt3_0 := (@pt3_0 S).

(** spherical_quadrature.hpp:12-23 : spherical_combine_op on points and weights. *)
Definition scale_pt (r : S) (a : pt3) : pt3 :=
  let '(x, y, z) := a in (r * x, r * y, r * z).
(** spherical_quadrature.hpp:19-21 : the overload for weights. *)
Definition mul_wt (x y : S) : S := x * y.

(** spherical_quadrature.hpp:196-206 and pruned_spherical_quadrature.hpp:249-259 :
    one iteration of shift_grid, [p += vector]. *)
Definition shift_pt (v p : pt3) : pt3 :=
  let '(x, y, z) := p in let '(a, b, c) := v in (x + a, y + b, z + c).

(** spherical_quadrature.hpp:196-206, pruned_spherical_quadrature.hpp:249-259 :
    shift_grid(points, vector). The loop touches each element once, in place. *)
Definition shift_grid (ps : list pt3) (v : pt3) : outcome (list pt3) :=
  for_range 0 (length ps)
    (fun i ps => let* p := vget ps i in vset ps i (shift_pt v p)) ps.

(** spherical_quadrature.hpp:225-231, pruned_spherical_quadrature.hpp:288-294 :
    [weights[i + j*npr] *= rp[i]*rp[i]]. *)
Definition apply_r2 (npr npa : nat) (rp ws : list S) : outcome (list S) :=
  for_range 0 npa
    (fun j ws =>
       for_range 0 npr
         (fun i ws =>
            let ij := Nat.add i (Nat.mul j npr) in
            let* w := vget ws ij in
            let* r := vget rp i in
            vset ws ij (w * (r * r))) ws) ws.

(** Quadrature<RadialQuad> and Quadrature<AngularQuad> (spherical_quadrature.hpp:148-149),
    and the points and weights of a spherical grid (l.155-160). *)
Definition rquad : Type := quad S S.
(** spherical_quadrature.hpp:149. *)
Definition aquad : Type := quad pt3 S.
(** spherical_quadrature.hpp:160-163. *)
Definition squad : Type := quad pt3 S.

(** The product traits used for spherical grids (spherical_quadrature.hpp:183-188). *)
Definition sph_product (r : rquad) (a : aquad) : outcome (list pt3 * list S) :=
  product_generate scale_pt mul_wt pt3_0 s0 r a.

(** spherical_quadrature.hpp:210-238 : SphericalQuadrature generate(r, a, cen). *)
Definition spherical_generate (r : rquad) (a : aquad) (cen : pt3)
  : outcome (list pt3 * list S) :=
  let* (points, weights) := sph_product r a in
  let* weights := apply_r2 (npts r) (npts a) (qpoints r) weights in
  let* points := shift_grid points cen in
  Ok (points, weights).

(** SphericalQuadratureBase (spherical_quadrature.hpp:28-87) together with the
    storage of the derived class: a centre and a quadrature. *)
Record sphobj : Type := mkSph { sph_quad : squad; sph_center : pt3 }.

(** spherical_quadrature.hpp:147-153 : constructor of SphericalQuadrature. *)
Definition spherical_construct (dbg : bool) (r : rquad) (a : aquad) (cen : pt3)
  : outcome sphobj :=
  let* q := construct dbg (spherical_generate r a cen) in
  Ok (mkSph q cen).

(** std::array [operator!=] used at spherical_quadrature.hpp:57 (element-wise [==]). *)
Definition pt_eqb (a b : pt3) : bool :=
  let '(x, y, z) := a in let '(x', y', z') := b in
  (x =? x') && (y =? y') && (z =? z').

(** spherical_quadrature.hpp:58-61 : shift = new_center - center_. *)
Definition pt_sub (a b : pt3) : pt3 :=
  let '(x, y, z) := a in let '(x', y', z') := b in (x - x', y - y', z - z').

(** spherical_quadrature.hpp:55-75 : recenter(new_center). *)
Definition recenter (new : pt3) (o : sphobj) : outcome sphobj :=
  if negb (pt_eqb new (sph_center o))
  then let shift := pt_sub new (sph_center o) in
       let* ps := shift_grid (qpoints (sph_quad o)) shift in
       Ok (mkSph (mkQuad ps (qweights (sph_quad o))) new)
  else Ok o.

(** spherical_quadrature.hpp:168-170, pruned_spherical_quadrature.hpp:215-217 :
    clone() copies points, weights and centre into a new object. *)
Definition sph_clone (o : sphobj) : sphobj :=
  mkSph (quad_copy (sph_quad o)) (sph_center o).

(** pruned_spherical_quadrature.hpp:12-16 : RadialGridPartition. *)
Record rgp : Type := mkRgp {
  rgp_idx : list nat;        (** l.15 [partition_idx_] *)
  rgp_quads : list aquad     (** l.16 [quads_] *)
}.

(** pruned_spherical_quadrature.hpp:54 : default constructor. *)
Definition rgp_empty : rgp := mkRgp [] [].

(** pruned_spherical_quadrature.hpp:34-43 : add_quad(rq, idx, q); [rn] is
    rq.npts(). [rq.npts()-1] is size_t arithmetic: for rn = 0 it wraps to 2^64-1
    and the comparison is true for every size_t [idx]. *)
Definition add_quad (dbg : bool) (rn idx : nat) (q : aquad) (p : rgp) : outcome rgp :=
  let ok := match rgp_idx p with
            | [] => Nat.eqb idx 0
            | _ => Nat.ltb (last (rgp_idx p) 0) idx
                   && (Nat.eqb rn 0 || Nat.ltb idx (Nat.sub rn 1))
            end%nat in
  let* _ := cassert dbg ok in
  Ok (mkRgp (rgp_idx p ++ [idx]) (rgp_quads p ++ [q])).

(** pruned_spherical_quadrature.hpp:46-50 : finalize(rq). [back()] of an empty
    vector is undefined behaviour. *)
Definition finalize (rn : nat) (p : rgp) : outcome rgp :=
  match rgp_idx p with
  | [] => UB
  | _ => if Nat.eqb (last (rgp_idx p) 0%nat) rn then Ok p
         else Ok (mkRgp (rgp_idx p ++ [rn]) (rgp_quads p))
  end.

(** pruned_spherical_quadrature.hpp:18-28,73-77 : variadic constructor: add_quad for
    each (idx, quad) argument pair in order, then finalize. *)
Fixpoint add_quads (dbg : bool) (rn : nat) (args : list (nat * aquad)) (p : rgp)
  : outcome rgp :=
  match args with
  | [] => finalize rn p
  | (idx, q) :: r => let* p := add_quad dbg rn idx q p in add_quads dbg rn r p
  end.

(** pruned_spherical_quadrature.hpp:73-77 : the public variadic constructor. *)
Definition rgp_construct (dbg : bool) (rn : nat) (args : list (nat * aquad))
  : outcome rgp := add_quads dbg rn args rgp_empty.

(** Iteration over a partition, pruned_spherical_quadrature.hpp:82-148: begin is
    (partition_idx_.begin(), quads_.begin()), end is (partition_idx_.end()-1,
    quads_.end()), [==] needs both iterators equal, [*it] reads *idx_it,
    *(idx_it+1), *quad_it. [fuel] bounds the number of increments; the walk leaves
    the vectors (UB) before the fuel given by [rgp_ranges] runs out. *)
Fixpoint rgp_walk (fuel : nat) (p : rgp) (ii qi : nat)
  : outcome (list ((nat * nat) * aquad)) :=
  match rgp_idx p with
  | [] => UB   (* end()-1 of an empty vector *)
  | _ =>
    if Nat.eqb ii (Nat.sub (length (rgp_idx p)) 1)
       && Nat.eqb qi (length (rgp_quads p))
    then Ok []
    else match fuel with
         | O => OutOfFuel
         | Datatypes.S fuel' =>
           let* i0 := vget (rgp_idx p) ii in
           let* i1 := vget (rgp_idx p) (Nat.add ii 1) in
           let* q := vget (rgp_quads p) qi in
           let* r := rgp_walk fuel' p (Datatypes.S ii) (Datatypes.S qi) in
           Ok (((i0, i1), q) :: r)
         end
  end.

(** pruned_spherical_quadrature.hpp:129-148 : from begin() to end(). *)
Definition rgp_ranges (p : rgp) : outcome (list ((nat * nat) * aquad)) :=
  rgp_walk (Datatypes.S (length (rgp_quads p))) p 0 0.

(** pruned_spherical_quadrature.hpp:273-298 : the body of the loop over regions. *)
Definition pruned_region (dbg : bool) (r : rquad) (rg : (nat * nat) * aquad)
  : outcome (list pt3 * list S) :=
  let '((b, e), a) := rg in
  let* rsub := construct dbg (subquad_generate dbg b e r) in
  let* (sub_points, sub_weights) := sph_product rsub a in
  let* sub_weights := apply_r2 (npts rsub) (npts a) (qpoints rsub) sub_weights in
  Ok (sub_points, sub_weights).

(** pruned_spherical_quadrature.hpp:272-299 : the range-based for loop over the
    regions of [p], iterators at (ii, qi), with the accumulated points/weights. *)
Fixpoint pruned_loop (fuel : nat) (dbg : bool) (r : rquad) (p : rgp) (ii qi : nat)
  (acc : list pt3 * list S) : outcome (list pt3 * list S) :=
  match rgp_idx p with
  | [] => UB   (* end()-1 of an empty vector *)
  | _ =>
    if Nat.eqb ii (Nat.sub (length (rgp_idx p)) 1)
       && Nat.eqb qi (length (rgp_quads p))
    then Ok acc
    else match fuel with
         | O => OutOfFuel
         | Datatypes.S fuel' =>
           let* i0 := vget (rgp_idx p) ii in
           let* i1 := vget (rgp_idx p) (Nat.add ii 1) in
           let* a := vget (rgp_quads p) qi in
           let* (sp, sw) := pruned_region dbg r ((i0, i1), a) in
           pruned_loop fuel' dbg r p (Datatypes.S ii) (Datatypes.S qi)
             (fst acc ++ sp, snd acc ++ sw)
         end
  end.

(** pruned_spherical_quadrature.hpp:262-307 : generate(r, rgp, cen). *)
Definition pruned_generate (dbg : bool) (r : rquad) (p : rgp) (cen : pt3)
  : outcome (list pt3 * list S) :=
  let* (points, weights) :=
    pruned_loop (Datatypes.S (length (rgp_quads p))) dbg r p 0 0 ([], []) in
  let* points := shift_grid points cen in
  Ok (points, weights).

(** pruned_spherical_quadrature.hpp:194-200 : constructor. *)
Definition pruned_construct (dbg : bool) (r : rquad) (p : rgp) (cen : pt3)
  : outcome sphobj :=
  let* q := construct dbg (pruned_generate dbg r p cen) in
  Ok (mkSph q cen).

End Spherical.
Arguments rquad : clear implicits. Arguments aquad : clear implicits.
Arguments squad : clear implicits. Arguments sphobj : clear implicits.
Arguments rgp : clear implicits.
