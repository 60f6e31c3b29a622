(** Properties C35-C36: the one-dimensional rules in binary64 arithmetic. *)
From Coq Require Import List Bool Arith ZArith Reals.
From Flocq Require Import IEEE754.BinarySingleNaN Core.
From Verif Require Import Base.Outcome Base.Scalar Base.FScalar Model.Primitive
  Spec.RuleSpec Proofs.MirrorFacts Proofs.UniformFloat.
Import ListNotations.

(** C35. Whatever the math library [m] returns, a generated rule is mirrored bit for bit. *)
Theorem C35_mirrored : forall (m : libm) gen n q,
  In gen [@gc1_generate (FS m); @gc2_generate (FS m); @gc2m_generate (FS m);
          @gl_generate (FS m); @lob_generate (FS m)] ->
  gen n = Ok q -> mirrored q.
Proof. exact all_mirrored_binary64. Qed.

(** The middle node of an odd rule is zero, except for Gauss-Legendre. *)
Theorem C35_middle : forall (m : libm) gen n q x,
  In gen [@gc1_generate (FS m); @gc2_generate (FS m); @gc2m_generate (FS m);
          @lob_generate (FS m)] ->
  gen n = Ok q -> middle_node q x -> x = s0.
Proof. intro m. exact (@middles (FS m)). Qed.

(** The two terms of a mirrored pair cancel exactly for every odd integrand. *)
Theorem C35_cancellation : forall m (q : list (FS m) * list (FS m)) (f : F64 -> F64),
  mirrored q -> (forall x, f (Bopp x) = Bopp (f x)) ->
  forall i j (x y v w : F64), i < j -> i + j + 1 = length (fst q) ->
    nth_error (fst q) i = Some x -> nth_error (fst q) j = Some y ->
    nth_error (snd q) i = Some v -> nth_error (snd q) j = Some w ->
    is_finite (fmul v (f x)) = true ->
    fadd (fmul v (f x)) (fmul w (f y)) = fzero.
Proof. exact mirrored_cancels. Qed.

(** Finding: the middle node of an odd Gauss-Legendre rule need not be zero; with the
    values glibc returns for 13 nodes it is a small positive number. *)
Theorem C35_legendre_middle_refuted :
  exists (m : libm) (n : nat) (q : list (FS m) * list (FS m)) (x : FS m),
  gl_generate n = Ok q /\ middle_node q x /\ sltb s0 x = true.
Proof. exact gl_middle_nonzero. Qed.

Example C35_ex : exists (q : list (FS libm13) * list (FS libm13)),
  gl_generate 13 = Ok q /\ mirrored q /\ length (fst q) = 13.
Proof. exact gl13_ex. Qed.

Example C35_cancellation_ex : let w := f_dec 1 1 in let x := f_dec 3 1 in
  (forall y : F64, (fun y => y) (Bopp y) = Bopp ((fun y => y) y)) /\
  is_finite (fmul w x) = true /\
  @mirrored (FS libm13) ([Bopp x; x], [w; w]).
Proof. exact odd_ex. Qed.

(** C36. If the last node is finite, the first node equals lo (also as a bit pattern
    unless lo is -0), the nodes are finite and non-decreasing, and the last node is up
    to within a rounding bound. *)
Theorem C36_nodes : forall m n (lo up : F64) (q : list F64 * list F64) (z : F64), 2 <= n ->
  @uniform_generate (FS m) n lo up = Ok q -> Bleb lo up = true ->
  nth_error (fst q) (n - 1) = Some z -> is_finite z = true ->
  (exists x, nth_error (fst q) 0 = Some x /\ Beqb x lo = true /\ (x = lo \/ lo = B754_zero true)) /\
  (forall i j x y, i <= j -> nth_error (fst q) i = Some x -> nth_error (fst q) j = Some y ->
     is_finite x = true /\ Bleb x y = true) /\
  ((Z.of_nat (n - 1) <= 2 ^ 53)%Z ->
   (Rabs (B2R z - B2R up)
    <= / 2 ^ 53 * Rabs (B2R up) + 4 * / 2 ^ 53 * (B2R up - B2R lo)
       + IZR (Z.of_nat n) * bpow radix2 (-1074))%R).
Proof. exact uniform_binary64. Qed.

(** Finding: the last node is not exactly up. *)
Theorem C36_last_refuted : forall m, exists n (lo up : F64) (q : list F64 * list F64) (z : F64),
  2 <= n /\ @uniform_generate (FS m) n lo up = Ok q /\ Bltb lo up = true /\
  nth_error (fst q) (n - 1) = Some z /\ is_finite z = true /\ Bltb z up = true.
Proof. exact uniform_last_differs. Qed.

Example C36_ex : Bleb (f_dec (-1) 1) (f_of 2 0) = true /\ is_finite (u7 6) = true /\
  Beqb (u7 0) (f_dec (-1) 1) = true /\ Bltb (u7 2) (u7 3) = true.
Proof. exact u7_ex. Qed.

Print Assumptions C35_mirrored.
Print Assumptions C35_middle.
Print Assumptions C35_cancellation.
Print Assumptions C35_legendre_middle_refuted.
Print Assumptions C36_nodes.
Print Assumptions C36_last_refuted.
