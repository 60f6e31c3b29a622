(** Case-insensitive parsing of scheme names. *)
From Coq Require Import Bool Arith ZArith Ascii String List Lia.
From Verif Require Import Base.Outcome Base.Scalar Model.Radial Model.S2 Model.Factory
  Spec.FactorySpec.
Import ListNotations.
Local Open Scope string_scope.

Definition all_ascii : list ascii := map ascii_of_nat (seq 0 256).

Lemma all_ascii_complete : forall c, In c all_ascii.
Proof.
  intro c. unfold all_ascii. apply in_map_iff. exists (nat_of_ascii c).
  split; [apply ascii_nat_embedding|]. apply in_seq.
  pose proof (nat_ascii_bounded c). lia.
Qed.

Definition letters : list (ascii * ascii) := Eval vm_compute in
  map (fun k => (ascii_of_nat (65 + k), ascii_of_nat (97 + k))) (seq 0 26).

Lemma letters_eq : letters
  = map (fun k => (ascii_of_nat (65 + k), ascii_of_nat (97 + k))) (seq 0 26).
Proof. vm_compute. reflexivity. Qed.

Definition swapped (c d : ascii) : bool :=
  existsb (fun p => if Ascii.eqb c (fst p) then Ascii.eqb d (snd p) else false) letters.

Definition same_letterb (c d : ascii) : bool := Ascii.eqb c d || swapped c d || swapped d c.

Lemma swapped_spec : forall c d, swapped c d = true <->
  exists k, k < 26 /\ c = ascii_of_nat (65 + k) /\ d = ascii_of_nat (97 + k).
Proof.
  intros c d. unfold swapped. rewrite existsb_exists, letters_eq. split.
  - intros (p & Hp & H). apply in_map_iff in Hp. destruct Hp as (k & <- & Hk). cbn [fst snd] in H.
    destruct (Ascii.eqb_spec c (ascii_of_nat (65 + k))); [|discriminate].
    apply Ascii.eqb_eq in H. apply in_seq in Hk. exists k. split; [lia|auto].
  - intros (k & Hk & -> & ->). exists (ascii_of_nat (65 + k), ascii_of_nat (97 + k)). split.
    + apply in_map_iff. exists k. split; [auto|apply in_seq; lia].
    + cbn [fst snd]. rewrite !Ascii.eqb_refl. auto.
Qed.

Lemma same_letterb_spec : forall c d, same_letterb c d = true <-> same_letter c d.
Proof.
  intros c d. unfold same_letterb, same_letter. rewrite !orb_true_iff, !swapped_spec, Ascii.eqb_eq.
  split.
  - intros [[H|(k & H & H1 & H2)]|(k & H & H1 & H2)]; auto; right; exists k; split; auto.
  - intros [H|(k & H & [H1|H1])]; auto; [left; right|right]; exists k; tauto.
Qed.

Lemma toupper_table : forallb (fun c => forallb (fun d =>
  Bool.eqb (Ascii.eqb (toupper c) (toupper d)) (same_letterb c d)) all_ascii) all_ascii = true.
Proof. vm_compute. reflexivity. Qed.

Lemma toupper_iff : forall c d, toupper c = toupper d <-> same_letter c d.
Proof.
  intros c d. rewrite <- same_letterb_spec. pose proof toupper_table as T.
  rewrite forallb_forall in T. specialize (T c (all_ascii_complete c)).
  rewrite forallb_forall in T. specialize (T d (all_ascii_complete d)).
  apply eqb_prop in T. rewrite <- T, Ascii.eqb_eq. reflexivity.
Qed.

Lemma upcase_iff : forall s t, upcase s = upcase t <-> same_name s t.
Proof.
  unfold same_name. induction s as [|c s IH]; destruct t as [|d t]; simpl; split; intro H;
    try discriminate; try (inversion H; fail); auto.
  - injection H as H1 H2. constructor; [apply toupper_iff|apply IH]; auto.
  - inversion H; subst. f_equal; [apply toupper_iff|apply IH]; auto.
Qed.

Lemma upcase_lit : forall s t u, upcase t = u -> (upcase s = u <-> same_name s t).
Proof. intros s t u <-. apply upcase_iff. Qed.


Lemma radial_name_iff : forall s q,
  radial_from_string s = Ok q <-> exists name, In (name, q) radial_names /\ same_name s name.
Proof.
  intros s q. split.
  - unfold radial_from_string. intro H.
    repeat match type of H with
    | (if String.eqb _ ?u then _ else _) = _ =>
        destruct (String.eqb_spec (upcase s) u) as [E|_]
    end; try discriminate; injection H as <-.
    1: exists "Becke". 2: exists "MuraKnowles". 3: exists "MK". 4: exists "MurrayHandyLaming".
    5: exists "MHL". 6: exists "TreutlerAhlrichs". 7: exists "TA".
    all: (split; [simpl; auto 10|]); eapply upcase_lit; [|exact E]; reflexivity.
  - intros (name & Hin & Hs). apply upcase_iff in Hs. unfold radial_from_string. cbv zeta. rewrite Hs.
    cbn [In radial_names angular_names] in Hin.
    repeat (destruct Hin as [Hin|Hin]; [injection Hin as <- <-; reflexivity|]). destruct Hin.
Qed.

Lemma radial_name_outcomes : forall s,
  (exists q, radial_from_string s = Ok q) \/ radial_from_string s = Throw ExRuntime.
Proof.
  intro s. unfold radial_from_string.
  repeat (destruct (String.eqb _ _); [left; eexists; reflexivity|]). auto.
Qed.

Lemma radial_name_throws : forall s,
  (forall name q, In (name, q) radial_names -> ~ same_name s name) ->
  radial_from_string s = Throw ExRuntime.
Proof.
  intros s H. destruct (radial_name_outcomes s) as [(q & E)|E]; auto.
  apply radial_name_iff in E. destruct E as (name & H1 & H2). destruct (H _ _ H1 H2).
Qed.

Lemma radial_name_case : forall s t, same_name s t -> radial_from_string s = radial_from_string t.
Proof. intros s t H. apply upcase_iff in H. unfold radial_from_string. rewrite H. auto. Qed.

Lemma angular_name_iff : forall s q,
  angular_from_string s = Ok q <-> exists name, In (name, q) angular_names /\ same_name s name.
Proof.
  intros s q. split.
  - unfold angular_from_string. intro H.
    repeat match type of H with
    | (if String.eqb _ ?u then _ else _) = _ =>
        destruct (String.eqb_spec (upcase s) u) as [E|_]
    end; try discriminate; injection H as <-.
    1: exists "AhrensBeylkin". 2: exists "AB". 3: exists "Delley". 4: exists "LebedevLaikov".
    5: exists "Lebedev". 6: exists "LL". 7: exists "Womersley".
    all: (split; [simpl; auto 10|]); eapply upcase_lit; [|exact E]; reflexivity.
  - intros (name & Hin & Hs). apply upcase_iff in Hs. unfold angular_from_string. cbv zeta. rewrite Hs.
    cbn [In radial_names angular_names] in Hin.
    repeat (destruct Hin as [Hin|Hin]; [injection Hin as <- <-; reflexivity|]). destruct Hin.
Qed.

Lemma angular_name_outcomes : forall s,
  (exists q, angular_from_string s = Ok q) \/ angular_from_string s = Throw ExRuntime.
Proof.
  intro s. unfold angular_from_string.
  repeat (destruct (String.eqb _ _); [left; eexists; reflexivity|]). auto.
Qed.

Lemma angular_name_throws : forall s,
  (forall name q, In (name, q) angular_names -> ~ same_name s name) ->
  angular_from_string s = Throw ExRuntime.
Proof.
  intros s H. destruct (angular_name_outcomes s) as [(q & E)|E]; auto.
  apply angular_name_iff in E. destruct E as (name & H1 & H2). destruct (H _ _ H1 H2).
Qed.

Lemma angular_name_case : forall s t, same_name s t -> angular_from_string s = angular_from_string t.
Proof. intros s t H. apply upcase_iff in H. unfold angular_from_string. rewrite H. auto. Qed.

(** ** Names of classes *)
Lemma radial_type_iff : forall c q,
  radial_from_type c = Ok q <-> In (q, c) radial_classes.
Proof.
  intros c q. split.
  - destruct c as [b k|f|n]; [|discriminate|discriminate].
    destruct b; destruct k as [|M| |]; try discriminate;
      cbn -[Nat.eqb]; intro H; try (injection H as <-; simpl; tauto).
    destruct (Nat.eqb_spec M 2) as [->|]; [injection H as <-; simpl; tauto|discriminate].
  - simpl. intros [H|[H|[H|[H|[]]]]]; injection H as <- <-; reflexivity.
Qed.
Lemma radial_type_throws : forall c,
  (forall q, ~ In (q, c) radial_classes) -> radial_from_type c = Throw ExRuntime.
Proof.
  intros c H. destruct (radial_from_type c) as [q|e| | |] eqn:E.
  - exfalso. apply (H q). apply radial_type_iff. exact E.
  - revert E. unfold radial_from_type.
    repeat match goal with |- context [if ?b then _ else _] => destruct b end; congruence.
  - revert E. unfold radial_from_type.
    repeat match goal with |- context [if ?b then _ else _] => destruct b end; congruence.
  - revert E. unfold radial_from_type.
    repeat match goal with |- context [if ?b then _ else _] => destruct b end; congruence.
  - revert E. unfold radial_from_type.
    repeat match goal with |- context [if ?b then _ else _] => destruct b end; congruence.
Qed.
Lemma angular_type_iff : forall c q,
  angular_from_type c = Ok q <-> exists f, c = CAngular f /\ q = AQ f.
Proof.
  intros c q. split.
  - destruct c as [b k|f|n]; [discriminate| |discriminate].
    intro H. exists f. split; [reflexivity|]. destruct f; cbn in H; injection H as <-; reflexivity.
  - intros (f & -> & ->). destruct f; reflexivity.
Qed.
Lemma angular_type_throws : forall c,
  (forall f, c <> CAngular f) -> angular_from_type c = Throw ExRuntime.
Proof. intros [b k|f|n] H; [reflexivity|exfalso; exact (H f eq_refl)|reflexivity]. Qed.
