(** Specification vocabulary for quadrature on the unit sphere: the surface integral, spherical
    harmonics, polynomials in three variables. *)
From Coq Require Import List Reals.
From Coquelicot Require Import Coquelicot.
From Verif Require Import Base.RScalar Model.S2 Spec.SphereSpec Model.Quadrature.
Import ListNotations.
Local Open Scope R_scope.

(** Surface integral over the unit sphere in polar coordinates. *)
Definition sphere_int (f : R -> R -> R -> R) : R :=
  RInt (fun phi => RInt (fun th =>
    f (sin th * cos phi) (sin th * sin phi) (cos th) * sin th) 0 PI) 0 (2 * PI).

(** Real and imaginary part of (x + i y)^m. *)
Fixpoint cpow (m : nat) (x y : R) : R * R :=
  match m with
  | O => (1, 0)
  | S m' => let '(a, b) := cpow m' x y in (x * a - y * b, x * b + y * a)
  end.

(** [geg m n] is the m-th derivative of the Legendre polynomial of degree m + n, scaled to the
    value 1 at z = 1 (for m = 0 it is the Legendre polynomial), by its three-term recurrence. *)
Fixpoint geg (m n : nat) (z : R) : R :=
  match n with
  | O => 1
  | S n' =>
    match n' with
    | O => z
    | S n'' => ((2 * INR n + 2 * INR m - 1) * z * geg m n' z - (INR n - 1) * geg m n'' z)
               / (INR n + 2 * INR m)
    end
  end.

(** The real spherical harmonic of degree m + n and azimuthal index m, as a polynomial in
    x, y, z: the cosine kind ([s = false]) or the sine kind ([s = true]). *)
Definition harm (s : bool) (m n : nat) (x y z : R) : R :=
  (if s then snd (cpow m x y) else fst (cpow m x y)) * geg m n z.

(** Root mean square of [harm s m n] over the sphere. *)
Definition harm_norm (m n : nat) : R :=
  sqrt ((if Nat.eqb m 0 then 1 else 1 / 2) * 4 ^ m * INR (fact m) * INR (fact m) * INR (fact n)
        / ((2 * INR (m + n) + 1) * INR (fact (n + 2 * m)))).

(** A linear combination of spherical harmonics, its value, its degree and its size. *)
Definition harmonics : Type := list (R * (bool * nat * nat)).
Fixpoint heval (h : harmonics) (x y z : R) : R :=
  match h with
  | [] => 0
  | (c, (s, m, n)) :: r => c * harm s m n x y z + heval r x y z
  end.
Definition hdeg_le (h : harmonics) (d : nat) : Prop :=
  forall c s m n, In (c, (s, m, n)) h -> (m + n <= d)%nat.
Fixpoint hsize (h : harmonics) : R :=
  match h with
  | [] => 0
  | (c, (s, m, n)) :: r => Rabs c * harm_norm m n + hsize r
  end.

(** Polynomials in x, y, z as lists of coefficients and exponents. *)
Definition poly3 : Type := list (R * (nat * nat * nat)).
Fixpoint p3eval (p : poly3) (x y z : R) : R :=
  match p with
  | [] => 0
  | (c, (i, j, k)) :: r => c * (x ^ i * y ^ j * z ^ k) + p3eval r x y z
  end.
Definition p3deg_le (p : poly3) (d : nat) : Prop :=
  forall c i j k, In (c, (i, j, k)) p -> (i + j + k <= d)%nat.

(** Value of a quadrature on a function of three variables. *)
Fixpoint nsum (l : list ((R * R * R) * R)) (f : R -> R -> R -> R) : R :=
  match l with
  | [] => 0
  | ((x, y, z), w) :: r => w * f x y z + nsum r f
  end.
Definition s2_sum (q : quad (@pt3 RS) R) (f : R -> R -> R -> R) : R := nsum (nodes q) f.

(** Points within [e] of the unit sphere (squared distance from the origin). *)
Definition near_sphere (e : R) (p : R * R * R) : Prop :=
  let '(x, y, z) := p in Rabs (x * x + y * y + z * z - 1) <= e.

(** The rule integrates every combination of spherical harmonics of degree at most [d] over the
    sphere with error at most [tol] times its size. *)
Definition integrates (tol : R) (d : nat) (q : quad (@pt3 RS) R) : Prop :=
  forall h, hdeg_le h d -> Rabs (s2_sum q (heval h) - sphere_int (heval h)) <= tol * hsize h.
