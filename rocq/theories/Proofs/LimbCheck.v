(** A checker for sums of spherical harmonics over a weighted point set, in three-limb fixed-point
    arithmetic. One unit is 2^-174; values v are stored as v + 2, which is positive. *)
From Coq Require Import ZArith List Bool Uint63.
From Bignums Require Import BigN BigZ.
From Verif Require Import Proofs.Limb.
Import ListNotations.

(** A point: z, 2(1-z), the multiplier (x+iy)^stride in the form used by [turn], and the running
    product v (x+iy)^m. *)
Record pt : Set := Pt { p_z : f3; p_k : f3; p_x : f3; p_y : f3; p_e : f3; p_f : f3; p_r : f3; p_i : f3 }.

Definition turn (p : pt) : pt :=
  match p with Pt z k x y e f r i =>
    Pt z k x y e f (comb (mad x r f0) i e (mad y i f0) r) (comb' (mad x i f0) (mad y r f0) f i r)
  end.
Definition ccol (p : pt) : col := match p with Pt z k _ _ _ _ r _ => Col z k r r end.
Definition scol (p : pt) : col := match p with Pt z k _ _ _ _ _ i => Col z k i i end.

Fixpoint csum (l : list col) (s : acc) : acc :=
  match l with [] => s | Col _ _ a _ :: r => csum r (accum s a) end.
Definition acc0 : acc := Acc 0 0 0 0.

Definition bint (x : int) : BigZ.t := BigZ.Pos (BigN.N0 x).
Definition c59b : BigZ.t := bint c59.
Definition bval (s : acc) : BigZ.t :=
  match s with Acc t h m l =>
    BigZ.add (BigZ.mul c59b (BigZ.add (BigZ.mul c59b (BigZ.add (BigZ.mul c59b (bint t)) (bint h))) (bint m))) (bint l)
  end.

Definition U : Z := 23945242826029513411849172299223580994042798784118784. (* 2^174 *)
Definition Ub : BigZ.t := Eval vm_compute in BigZ.of_Z U.

(** Error allowance of a sum over [K] points at indices (m, n), in units of the last place. *)
Definition allow (K : Z) (m n : nat) : Z :=
  (K * (40 * (Z.of_nat n * Z.of_nat n) + 246 * Z.of_nat m + 5))%Z.

Section Rows.
(** Numbers of points above and below the equator, the same times 2 U, target for the constant, tolerance. *)
Variables (K1 K2 : Z) (b1 b2 tgt : BigZ.t) (tn td : Z).

(** The sum over points above (ps) and below (ns) the equator. *)
Definition total (n : nat) (ps ns : list col) : BigZ.t :=
  let s1 := BigZ.sub (bval (csum ps acc0)) b1 in
  let s2 := BigZ.sub (bval (csum ns acc0)) b2 in
  if Nat.even n then BigZ.add s1 s2 else BigZ.sub s1 s2.

(** |s| + allowance <= (tn/td) sqrt(q / ((2l+1)(1|2))); for the constant, |s - tgt| + allowance + 1 <= (tn/td) U. *)
Definition within (q : BigZ.t) (m n : nat) (s : BigZ.t) : bool :=
  let e := BigZ.add (BigZ.abs s) (BigZ.of_Z (allow (K1 + K2) m n)) in
  BigZ.leb (BigZ.mul (BigZ.mul e e)
              (BigZ.of_Z (td * td * ((2 * Z.of_nat (m + n) + 1) * (if Nat.eqb m 0 then 1 else 2)))))
           (BigZ.mul (BigZ.of_Z (tn * tn)) q).
Definition within0 (s : BigZ.t) : bool :=
  BigZ.leb (BigZ.mul (BigZ.add (BigZ.abs (BigZ.sub s tgt)) (BigZ.of_Z (allow (K1 + K2) 0 0 + 1))) (BigZ.of_Z td))
           (BigZ.mul (BigZ.of_Z tn) Ub).
Definition test (m n : nat) (q s : BigZ.t) : bool :=
  if Nat.eqb (m + n) 0 then within0 s else within q m n s.

(** [ni] is n, [di] is n + 2m + 1, [q] a lower bound of U^2 4^m m!^2 n! / (n+2m)!. *)
Fixpoint row (f : nat -> bool) (fuel m n : nat) (ni di : int) (q : BigZ.t) (ps ns : list col) : bool :=
  (if f n then test m n q (total n ps ns) else true) &&
  match fuel with
  | O => true
  | S fu =>
    let b := ratio ni di in
    let d := mhalf b in
    row f fu m (S n) (ni + 1)%uint63 (di + 1)%uint63 (BigZ.div (BigZ.mul q (bint (ni + 1)%uint63)) (bint di))
        (map (step b d) ps) (map (step b d) ns)
  end.

(** Lower bound at (m + j, 0) from the one at (m, 0). *)
Fixpoint qturn (j : nat) (mi : int) (q : BigZ.t) : BigZ.t :=
  match j with
  | O => q
  | S j' => qturn j' (mi + 1)%uint63 (BigZ.div (BigZ.mul q (bint (2 * mi + 2)%uint63)) (bint (2 * mi + 1)%uint63))
  end.

(** [mi] is m; rows m, m + st, ... up to degree [L]; [k] bounds their number. *)
Fixpoint rows (fc fs : nat -> nat -> bool) (ks : bool) (st L k m : nat) (mi : int) (q : BigZ.t) (ps ns : list pt) : bool :=
  row (fc m) (L - m) m 0 0%uint63 (2 * mi + 1)%uint63 q (map ccol ps) (map ccol ns) &&
  (if ks then row (fs m) (L - m) m 0 0%uint63 (2 * mi + 1)%uint63 q (map scol ps) (map scol ns) else true) &&
  match k with
  | O => true
  | S k' => if Nat.leb (m + st) L then
              rows fc fs ks st L k' (m + st) (mi + of_Z (Z.of_nat st))%uint63 (qturn st mi q) (map turn ps) (map turn ns)
            else true
  end.
End Rows.

(** ** Loading points *)
Definition S190 : Z := 1569275433846670190958947355801916604025588861116008628224.
Definition S190b : BigZ.t := Eval vm_compute in BigZ.of_Z S190.
Definition Nb : BigZ.t := Eval vm_compute in BigZ.of_Z N.
Definition m59b : BigZ.t := Eval vm_compute in BigZ.of_Z 576460752303423487.

Definition int_of (b : BigZ.t) : int :=
  match b with BigZ.Pos (BigN.N0 i) => i | _ => of_Z (BigZ.to_Z b) end.
Definition split (t : BigZ.t) : f3 :=
  F3 (int_of (BigZ.shiftr t 118%bigZ)) (int_of (BigZ.land (BigZ.shiftr t 59%bigZ) m59b)) (int_of (BigZ.land t m59b)).
Definition split16 (t : BigZ.t) : f3 :=
  match split t with F3 h m l => F3 (h << 4)%uint63 (m << 4)%uint63 (l << 4)%uint63 end.

Fixpoint bcpow (m : nat) (x y : BigZ.t) : BigZ.t * BigZ.t :=
  match m with
  | O => (S190b, BigZ.zero)
  | S m' => let '(a, b) := bcpow m' x y in
            (BigZ.shiftr (BigZ.sub (BigZ.mul x a) (BigZ.mul y b)) 190%bigZ,
             BigZ.shiftr (BigZ.add (BigZ.mul x b) (BigZ.mul y a)) 190%bigZ)
  end.

(** x, y in units of 2^-190, z in units of 2^-177, v in units of 2^-174. *)
Definition load (st : nat) (x y z v : BigZ.t) : pt :=
  let '(a, b) := bcpow st x y in
  let s2 := BigZ.mul 2%bigZ S190b in
  let a2 := BigZ.mul 2%bigZ a in
  let b2 := BigZ.mul 2%bigZ b in
  Pt (split16 (BigZ.min z (BigZ.sub Nb 1%bigZ))) (split (BigZ.shiftr (BigZ.sub Nb z) 2%bigZ))
     (split16 (BigZ.shiftr (BigZ.add s2 a) 15%bigZ)) (split16 (BigZ.shiftr (BigZ.add s2 b) 15%bigZ))
     (split (BigZ.shiftr (BigZ.sub (BigZ.add s2 b2) a2) 16%bigZ))
     (split (BigZ.shiftr (BigZ.sub (BigZ.sub s2 a2) b2) 16%bigZ))
     (split (BigZ.add v (BigZ.mul 2%bigZ Ub))) (split (BigZ.mul 2%bigZ Ub)).
