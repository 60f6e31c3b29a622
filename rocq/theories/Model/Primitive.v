(** Model of include/integratorxx/quadratures/primitive/*.hpp and
    include/integratorxx/util/legendre.hpp (paths below are relative to
    include/integratorxx/). Each [generate] works on zero-initialised vectors and
    fills them with bounds-checked writes, as the code does. *)
From Coq Require Import List Bool Arith ZArith.
From Verif Require Import Base.Outcome Base.Scalar.
Import ListNotations.

Section Primitive.
Context {S : Scalar}.
Local Open Scope scalar_scope.

(** The pair of vectors under construction, e.g. quadratures/primitive/gausschebyshev1.hpp:58-59. *)
Definition arrays : Type := (list S * list S)%type.

(** [points[i] = p; weights[i] = w;], e.g. quadratures/primitive/gausschebyshev1.hpp:81-86. *)
Definition store (i : nat) (p w : S) (a : arrays) : outcome arrays :=
  let* ps := vset (fst a) i p in
  let* ws := vset (snd a) i w in
  Ok (ps, ws).

(** [point_container points(npts); weight_container weights(npts);],
    e.g. quadratures/primitive/gausschebyshev1.hpp:58-59,
    value-initialised to zero. *)
Definition fresh (n : nat) : arrays := (repeat s0 n, repeat s0 n).

(** quadratures/primitive/uniform.hpp:48-64 : generate(npts, lo, up).
    For [npts = 0] the code computes [npts_use = npts - 1 = 2^64-1] (l.51) and the
    loop on l.56 writes [points[0]] of an empty vector: undefined behaviour.
    Otherwise [i <= npts_use] is [i < npts]. *)
Definition uniform_generate (n : nat) (lo up : S) : outcome arrays :=
  match n with
  | O => UB
  | _ =>
    let npts_use := Nat.sub n 1 in
    let delta_x := (up - lo) / sofN npts_use in
    let points := repeat s0 n in
    let weights := repeat delta_x n in
    let* points :=
      for_range 0 (npts_use + 1)
        (fun i ps => vset ps i (lo + sofN i * delta_x)) points in
    (* l.59 [weights.front() *= 0.5] *)
    let* wf := vget weights 0 in
    let* weights := vset weights 0 (wf * shalf) in
    (* l.60 [weights.back() *= 0.5] *)
    let* wb := vget weights (Nat.sub n 1) in
    let* weights := vset weights (Nat.sub n 1) (wb * shalf) in
    Ok (points, weights)
  end.

(** quadratures/primitive/uniform.hpp:66-67 : generate(npts) on [0,1]. *)
Definition uniform01_generate (n : nat) : outcome arrays :=
  uniform_generate n s0 s1.

(** quadratures/primitive/gausschebyshev1.hpp:57-97 : generate(npts). *)
Definition gc1_generate (n : nat) : outcome arrays :=
  let pi_ov_npts := spi / sofN n in
  let pi_ov_2npts := pi_ov_npts / s2 in
  let* a :=
    for_range 0 (Nat.div n 2)
      (fun idx a =>
         let i := Nat.sub n idx in
         let ti := (s2 * sofN i - s1) * pi_ov_2npts in
         let xi := scos ti in
         let wi := pi_ov_npts * ssqrt (s1 - xi * xi) in
         let* a := store idx xi wi a in
         store (Nat.sub i 1) (- xi) wi a)
      (fresh n) in
  if Nat.odd n then store (Nat.div n 2) s0 pi_ov_npts a else Ok a.

(** quadratures/primitive/gausschebyshev2.hpp:62-99 : generate(npts). *)
Definition gc2_generate (n : nat) : outcome arrays :=
  let pi_ov_npts_p_1 := spi / sofN (n + 1) in
  let* a :=
    for_range 0 (Nat.div n 2)
      (fun idx a =>
         let i := Nat.sub n idx in
         let ti := sofN i * pi_ov_npts_p_1 in
         let xi := scos ti in
         let wi := pi_ov_npts_p_1 * ssqrt (s1 - xi * xi) in
         let* a := store idx xi wi a in
         store (Nat.sub i 1) (- xi) wi a)
      (fresh n) in
  if Nat.odd n then store (Nat.div n 2) s0 pi_ov_npts_p_1 a else Ok a.

(** quadratures/primitive/gausschebyshev2modified.hpp:61-98 : generate(npts). *)
Definition gc2m_generate (n : nat) : outcome arrays :=
  let oonpp := s1 / sofN (n + 1) in
  let* a :=
    for_range 0 (Nat.div n 2)
      (fun idx a =>
         let i := Nat.sub n idx in
         let ti := sofN i * spi * oonpp in
         let sine := ssin ti in
         let sinesq := sine * sine in
         let cosine := scos ti in
         let pt := s1 - s2 * sofN i * oonpp
                   + s2pi * (s1 + s2 / sofZ 3 * sinesq) * cosine * sine in
         let wt := sofZ 16 / sofZ 3 / (sofN n + s1) * sinesq * sinesq in
         let* a := store idx pt wt a in
         (* l.87-88 re-read what was just stored *)
         let* p := vget (fst a) idx in
         let* w := vget (snd a) idx in
         store (Nat.sub i 1) (- p) w a)
      (fresh n) in
  if Nat.odd n
  then store (Nat.div n 2) s0 (sofZ 16 / sofZ 3 / (sofN n + s1)) a
  else Ok a.

(** quadratures/primitive/gausschebyshev3.hpp:57-84 : generate(npts). *)
Definition gc3_generate (n : nat) : outcome arrays :=
  let pi_ov_2n_p_1 := spi / sofN (2 * n + 1) in
  for_range 0 n
    (fun idx a =>
       let i := Nat.sub n idx in
       let ti := shalf * sofN (2 * i - 1) * pi_ov_2n_p_1 in
       let cti := scos ti in
       let xi := cti * cti in
       let wi := s2 * pi_ov_2n_p_1 * xi in
       let wi := wi * ssqrt ((s1 - xi) / xi) in
       store idx xi wi a)
    (fresh n).

(** util/legendre.hpp:28-32 : the recurrence loop, state (P_m, P_{m-1}, P_{m-2}). *)
Fixpoint legendre_loop (x : S) (k m : nat) (p pm1 pm2 : S) : S * S * S :=
  match k with
  | O => (p, pm1, pm2)
  | Datatypes.S k' =>
    let p' := ((s2 * sofN m - s1) * x * p - (sofN m - s1) * pm1) / sofN m in
    legendre_loop x k' (Datatypes.S m) p' p pm1
  end.

(** util/legendre.hpp:20-39 : eval_Pn(x, n) = (P_n, dP_n, P_{n-1}). *)
Definition eval_Pn (x : S) (n : nat) : S * S * S :=
  let '(p_n, p_n_m1, _) := legendre_loop x n 1 s1 s0 s0 in
  let dp_n := (x * p_n - p_n_m1) * (sofN n / (x * x - s1)) in
  (p_n, dp_n, p_n_m1).

(** quadratures/primitive/gausslegendre.hpp:65-81 : at most [it] Newton steps from
    [z]; [Some (z, dp_n)] when [converged] is set, [None] otherwise. *)
Fixpoint gl_newton (n it : nat) (z : S) : option (S * S) :=
  match it with
  | O => None
  | Datatypes.S it' =>
    let '(p_n, dp_n, _) := eval_Pn z n in
    let z_old := z in
    let z := z - p_n / dp_n in
    if sabs (z - z_old) <=? seps then Some (z, dp_n) else gl_newton n it' z
  end.

(** quadratures/primitive/gausslegendre.hpp:56-59 : initial guess for index idx. *)
Definition gl_guess (n idx : nat) : S :=
  let i := sofN (idx + 1) in
  scos (spi * (i - sdec 25 2) / (sofN n + shalf)).

(** quadratures/primitive/gausslegendre.hpp:43-103 : generate(npts). *)
Definition gl_generate (n : nat) : outcome arrays :=
  let mid := Nat.div (n + 1) 2 in
  for_range 0 mid
    (fun idx a =>
       match gl_newton n 100 (gl_guess n idx) with
       | None => Throw ExRuntime
       | Some (z, dp_n) =>
         let pt := z in
         let wgt := s2 / ((s1 - z * z) * dp_n * dp_n) in
         let* a := store idx (- pt) wgt a in
         store (Nat.sub (Nat.sub n 1) idx) pt wgt a
       end)
    (fresh n).

(** quadratures/primitive/gausslobatto.hpp:57-77 : at most [it] Newton steps from
    [z]; [Some (z, p_nm1)] when converged. *)
Fixpoint lob_newton (n it : nat) (z : S) : option (S * S) :=
  match it with
  | O => None
  | Datatypes.S it' =>
    let '(p_nm1, _, p_nm2) := eval_Pn z (Nat.sub n 1) in
    let z_old := z in
    let z := z - (z * p_nm1 - p_nm2) / (sofN n * p_nm1) in
    if sabs (z - z_old) <=? seps then Some (z, p_nm1) else lob_newton n it' z
  end.

(** quadratures/primitive/gausslobatto.hpp:49-50 : initial guess for index idx. *)
Definition lob_guess (n idx : nat) : S :=
  let i := sofN (Nat.sub (Nat.sub n 1) idx) in
  scos (i * spi / (sofN n - s1)).

(** quadratures/primitive/gausslobatto.hpp:33-109 : generate(npts). For [npts = 0]
    the write [points[0]] on l.98 is out of bounds ([vset] returns [UB]); the
    wrapped index [npts-1] on l.100 is not reached. *)
Definition lob_generate (n : nat) : outcome arrays :=
  let two_ov_nnm1 := s2 / (sofN n * (sofN n - s1)) in
  let mid := Nat.div (n + 1) 2 in
  let* a :=
    for_range 1 mid
      (fun idx a =>
         match lob_newton n 100 (lob_guess n idx) with
         | None => Throw ExRuntime
         | Some (z, p_nm1) =>
           let pt := z in
           let wgt := two_ov_nnm1 / (p_nm1 * p_nm1) in
           let* a := store idx pt wgt a in
           store (Nat.sub (Nat.sub n 1) idx) (- pt) wgt a
         end)
      (fresh n) in
  let* a := store 0 (- s1) two_ov_nnm1 a in
  let* a := store (Nat.sub n 1) s1 two_ov_nnm1 a in
  if Nat.odd n
  then let* ps := vset (fst a) (Nat.div n 2) s0 in Ok (ps, snd a)
  else Ok a.

End Primitive.
