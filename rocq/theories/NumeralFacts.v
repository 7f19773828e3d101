(** Proofs about numbers in decimal notation. *)
From Coq Require Import NArith Bool List Ascii String Lia.
From Verif Require Import NumeralSpec.
From Verif Require PyText CMakeLang.
Import ListNotations.

Lemma numeral_code k c : nth_error numerals k = Some c -> N_of_ascii c = (48 + N.of_nat k)%N /\ (k < 10)%nat.
Proof. do 10 (destruct k as [|k]; [intros [= <-]; split; [reflexivity|lia]|]). destruct k; discriminate. Qed.
Lemma code_numeral c : (48 <= N_of_ascii c)%N -> (N_of_ascii c <= 57)%N -> nth_error numerals (N.to_nat (N_of_ascii c - 48)) = Some c.
Proof. destruct c as [[] [] [] [] [] [] [] []]; vm_compute; intros A B; try reflexivity; exfalso; (now apply A) || (now apply B). Qed.
Lemma digit_numeral c : PyText.is_digit c = true <-> exists k, nth_error numerals k = Some c /\ PyText.digit c = N.of_nat k.
Proof.
  unfold PyText.is_digit, PyText.digit, PyText.code. rewrite andb_true_iff, !N.leb_le. split.
  - intros [A B]. exists (N.to_nat (N_of_ascii c - 48)). split; [now apply code_numeral|now rewrite N2Nat.id].
  - intros (k & E & _). apply numeral_code in E. lia.
Qed.

Theorem parse_int_exact s n : PyText.parse_int s = Some n <-> decimal s n.
Proof.
  assert (X : PyText.parse_int s = Some n <-> s <> [] /\ forallb PyText.is_digit s = true /\ PyText.digits_value s = n).
  { unfold PyText.parse_int. destruct s as [|c r]; [split; [discriminate|intros [[] _]; reflexivity]|].
    destruct (forallb PyText.is_digit (c :: r)); split; [intros [= <-]; repeat split; discriminate|now intros (_ & _ & ->)|discriminate|intros (_ & [=] & _)]. }
  rewrite X. split.
  - clear X. revert n. induction s as [|c s IH] using rev_ind; [intros n [[] _]; reflexivity|]. intros n (_ & F & V).
    rewrite forallb_app in F. apply andb_true_iff in F. destruct F as [F D]. cbn in D. rewrite andb_true_r in D. apply digit_numeral in D.
    destruct D as (k & K & V'). unfold PyText.digits_value in V. rewrite fold_left_app in V. cbn [fold_left] in V. rewrite V' in V. destruct s as [|d s].
    + cbn in V. subst n. cbn. now constructor.
    + subst n. constructor; [|exact K]. apply IH. repeat split; [discriminate|exact F].
  - intros D. clear X. induction D as [c k K|w n c k D IH K].
    + split; [discriminate|]. assert (P : PyText.is_digit c = true) by (apply digit_numeral; exists k; split; [exact K|]; unfold PyText.digit, PyText.code; apply numeral_code in K; lia).
      cbn [forallb]. rewrite P. split; [reflexivity|]. unfold PyText.digits_value. cbn [fold_left]. unfold PyText.digit, PyText.code. apply numeral_code in K. lia.
    + destruct IH as (N & F & V). split; [intros E; apply app_eq_nil in E; destruct E; discriminate|].
      assert (P : PyText.is_digit c = true) by (apply digit_numeral; exists k; split; [exact K|]; unfold PyText.digit, PyText.code; apply numeral_code in K; lia).
      rewrite forallb_app, F. cbn [forallb]. rewrite P. split; [reflexivity|].
      unfold PyText.digits_value in *. rewrite fold_left_app, V. cbn [fold_left]. unfold PyText.digit, PyText.code. apply numeral_code in K. lia.
Qed.

Definition reads (s : list ascii) (a : N) : N := fold_left (fun n c => 10 * n + (N_of_ascii c - 48))%N s a.
Definition go := fix go s a := match s with
    | String c r => if CMakeLang.is_digit c then go r (10 * a + (N_of_ascii c - 48))%N else a
    | EmptyString => a
    end.
Lemma go_reads w : forall rest a, forallb CMakeLang.is_digit w = true ->
  match rest with EmptyString => True | String c _ => CMakeLang.is_digit c = false end ->
  go (string_of_list_ascii w ++ rest) a = reads w a.
Proof.
  induction w as [|c w IH]; intros rest a F R; cbn [string_of_list_ascii append].
  - destruct rest as [|c r]; [reflexivity|]. cbn [go]. now rewrite R.
  - cbn in F. apply andb_true_iff in F. destruct F as [D F]. cbn [go]. rewrite D. unfold reads. cbn [fold_left]. now apply IH.
Qed.
Lemma digit_in c : CMakeLang.is_digit c = true <-> In c numerals.
Proof.
  unfold CMakeLang.is_digit. rewrite andb_true_iff, !N.leb_le. split.
  - intros [A B]. exact (nth_error_In _ _ (code_numeral c A B)).
  - intros I. apply In_nth_error in I. destruct I as [k K]. apply numeral_code in K. lia.
Qed.
Theorem component_exact w n rest : decimal w n -> match rest with EmptyString => True | String c _ => ~ In c numerals end ->
  CMakeLang.component (string_of_list_ascii w ++ rest) = n.
Proof.
  intros D R. change (CMakeLang.component (string_of_list_ascii w ++ rest)) with (go (string_of_list_ascii w ++ rest) 0).
  assert (X : forallb CMakeLang.is_digit w = true /\ reads w 0 = n).
  { clear R. induction D as [c k K|w n c k D [F V] K].
    - assert (P : CMakeLang.is_digit c = true) by (apply digit_in; exact (nth_error_In _ _ K)). cbn [forallb]. rewrite P. split; [reflexivity|].
      unfold reads. cbn [fold_left]. apply numeral_code in K. lia.
    - assert (P : CMakeLang.is_digit c = true) by (apply digit_in; exact (nth_error_In _ _ K)). rewrite forallb_app, F. cbn [forallb]. rewrite P.
      split; [reflexivity|]. unfold reads in *. rewrite fold_left_app, V. cbn [fold_left]. apply numeral_code in K. lia. }
  destruct X as [F V]. rewrite go_reads; [exact V|exact F|]. destruct rest as [|c r]; [exact I|].
  apply not_true_iff_false. now rewrite digit_in.
Qed.
Theorem component_none c r : ~ In c numerals -> CMakeLang.component (String c r) = 0%N.
Proof. intros N. cbn. rewrite <- digit_in in N. apply not_true_iff_false in N. now rewrite N. Qed.
