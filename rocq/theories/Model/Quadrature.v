(** Model of include/integratorxx/quadrature.hpp (paths below are relative to
    include/integratorxx/). *)
From Coq Require Import List Bool Arith.
From Verif Require Import Base.Outcome.

(** quadrature.hpp:20-33 : class QuadratureBase, its two data members. *)
Record quad (P W : Type) : Type := mkQuad {
  qpoints : list P;     (** quadrature.hpp:32 [points_] *)
  qweights : list W     (** quadrature.hpp:33 [weights_] *)
}.
Arguments mkQuad {P W}. Arguments qpoints {P W}. Arguments qweights {P W}.

Section Quad.
Context {P W : Type}.

(** quadrature.hpp:35-44 : constructor storing the generated tuple followed by
    [sanity_check] (an assert). *)
Definition quad_of (dbg : bool) (pw : list P * list W) : outcome (quad P W) :=
  let* _ := cassert dbg (Nat.eqb (length (fst pw)) (length (snd pw))) in
  Ok (mkQuad (fst pw) (snd pw)).

(** quadrature.hpp:229-230 : the forwarding constructor: run the generator of the
    traits class, then store. The parameter pack is already applied here. *)
Definition construct (dbg : bool) (gen : outcome (list P * list W))
  : outcome (quad P W) :=
  let* pw := gen in quad_of dbg pw.

(** quadrature.hpp:134 : [npts()]. *)
Definition npts (q : quad P W) : nat := length (qpoints q).

(** quadrature.hpp:146 : [points(i)], bounds checked. *)
Definition point_at (q : quad P W) (i : nat) : outcome P := vat (qpoints q) i.

(** quadrature.hpp:157 : [weights(i)], bounds checked. *)
Definition weight_at (q : quad P W) (i : nat) : outcome W := vat (qweights q) i.

(** quadrature.hpp:235,238-239 : copy construction (also from a derived object to
    its base). The copy owns fresh storage with equal contents. *)
Definition quad_copy (q : quad P W) : quad P W :=
  mkQuad (qpoints q) (qweights q).

(** quadrature.hpp:236,240-241 : move construction: the new object takes the
    storage, the source is left with empty vectors (libstdc++ behaviour; the
    standard only says valid but unspecified). Result: (new, source). *)
Definition quad_move (q : quad P W) : quad P W * quad P W :=
  (mkQuad (qpoints q) (qweights q), mkQuad nil nil).

End Quad.
