(** Proofs about the sources of the benchmark. *)
From Coq Require Import NArith ZArith Bool List Ascii String FinFun Lia ZifyBool ZifyNat ZifyN.
From Verif Require Import PyText Bench BenchSpec.
Import ListNotations.
Open Scope N_scope.

(** * Decimal numbers *)

Lemma below_ten (P : N -> Prop) : P 0 -> P 1 -> P 2 -> P 3 -> P 4 -> P 5 -> P 6 -> P 7 -> P 8 -> P 9 -> forall d, d < 10 -> P d.
Proof.
  intros. destruct d as [|p]; [assumption|].
  assert (p = 1 \/ p = 2 \/ p = 3 \/ p = 4 \/ p = 5 \/ p = 6 \/ p = 7 \/ p = 8 \/ p = 9)%positive as C by lia.
  repeat (destruct C as [->|C]; [assumption|]). now rewrite C.
Qed.
Lemma digit_char d : d < 10 -> In (ascii_of_N (48 + d)) numerals /\ digit (ascii_of_N (48 + d)) = d /\
  is_digit (ascii_of_N (48 + d)) = true /\ is_space (ascii_of_N (48 + d)) = false.
Proof. revert d. apply below_ten; vm_compute; intuition. Qed.

Lemma size_bound n : n < 2 ^ N.of_nat (N.size_nat n).
Proof.
  destruct n as [|p]; [reflexivity|]. cbn [N.size_nat]. induction p as [p IH|p IH|]; cbn [Pos.size_nat].
  - rewrite Nat2N.inj_succ, N.pow_succ_r'. lia.
  - rewrite Nat2N.inj_succ, N.pow_succ_r'. lia.
  - reflexivity.
Qed.
Lemma decimal_value fuel : forall n rest, n < 2 ^ N.of_nat fuel ->
  fold_left (fun n c => 10 * n + digit c) (decimal_from fuel n rest) 0 = fold_left (fun n c => 10 * n + digit c) rest n.
Proof.
  induction fuel as [|f IH]; intros n rest H; cbn [decimal_from].
  - change (2 ^ N.of_nat 0) with 1 in H. replace n with 0 by lia. reflexivity.
  - rewrite Nat2N.inj_succ, N.pow_succ_r' in H.
    assert (M : n mod 10 < 10) by (apply N.mod_lt; lia). pose proof (digit_char _ M) as (_ & D & _).
    pose proof (N.div_mod n 10 ltac:(lia)) as E.
    destruct (N.ltb_spec n 10) as [T|T].
    + cbn [fold_left]. rewrite D. replace (10 * 0 + n mod 10) with n; [reflexivity|]. now rewrite N.mod_small.
    + rewrite IH.
      * cbn [fold_left]. rewrite D. now rewrite <- E.
      * apply N.div_lt_upper_bound; lia.
Qed.
Lemma str_value n : digits_value (py_str n) = n.
Proof.
  unfold digits_value, py_str. rewrite decimal_value; [reflexivity|].
  pose proof (size_bound n). rewrite Nat2N.inj_succ, N.pow_succ_r'. lia.
Qed.
Lemma str_inj m n : py_str m = py_str n -> m = n.
Proof. intros H. now rewrite <- (str_value m), <- (str_value n), H. Qed.
Lemma decimal_chars (P : ascii -> Prop) : (forall d, d < 10 -> P (ascii_of_N (48 + d))) ->
  forall fuel n rest, (forall c, In c rest -> P c) -> forall c, In c (decimal_from fuel n rest) -> P c.
Proof.
  intros D. induction fuel as [|f IH]; intros n rest R; cbn [decimal_from]; [exact R|].
  assert (R' : forall c, In c (ascii_of_N (48 + n mod 10) :: rest) -> P c).
  { intros c [<-|I]; [apply D; apply N.mod_lt; lia|now apply R]. }
  destruct (n <? 10); [exact R'|]. now apply IH.
Qed.
Lemma str_chars n c : In c (py_str n) -> In c numerals /\ is_digit c = true /\ is_space c = false.
Proof.
  unfold py_str. apply (decimal_chars (fun c => In c numerals /\ is_digit c = true /\ is_space c = false)); [|intros ? []]. intros d Hd. pose proof (digit_char d Hd). tauto.
Qed.
Lemma decimal_some fuel : forall n rest, rest <> [] -> decimal_from fuel n rest <> [].
Proof. induction fuel as [|f IH]; intros n rest R; cbn [decimal_from]; [exact R|]. destruct (n <? 10); [discriminate|]. now apply IH. Qed.
Lemma str_some n : py_str n <> [].
Proof. unfold py_str. cbn [decimal_from]. destruct (n <? 10); [discriminate|]. now apply decimal_some. Qed.

Lemma strip_tight c s d : is_space c = false -> is_space d = false -> strip (c :: s ++ [d]) = c :: s ++ [d].
Proof.
  intros C D. unfold strip. cbn [lstrip]. rewrite C. cbn [rev]. rewrite rev_app_distr. cbn [rev app].
  cbn [lstrip]. rewrite D. cbn [rev]. now rewrite rev_app_distr, rev_involutive.
Qed.
Lemma strip_solid s : (forall c, In c s -> is_space c = false) -> strip s = s.
Proof.
  intros H. destruct s as [|c s]; [reflexivity|]. destruct s as [|e s _] using rev_ind.
  - unfold strip. cbn [lstrip rev app]. rewrite (H c) by now left. cbn [rev app lstrip]. rewrite (H c) by now left. reflexivity.
  - apply strip_tight; apply H; [now left|]. right. apply in_or_app. right. now left.
Qed.
Lemma int_of_digits s : (forall c, In c s -> is_digit c = true) -> forall b n, s <> [] \/ b = true ->
  int_digits s b n = Some (fold_left (fun n c => 10 * n + digit c) s n).
Proof.
  induction s as [|c s IH]; intros H b n N.
  - destruct N as [N| ->]; [now destruct N|reflexivity].
  - cbn [int_digits fold_left]. rewrite (H c) by now left. apply IH; [|now right]. intros d I. apply H. now right.
Qed.
Lemma sign_no_digit c : is_digit c = true -> c <> "-"%char /\ c <> "+"%char.
Proof. intros H. split; intros ->; discriminate H. Qed.
Lemma numeral_digit c k : nth_error numerals k = Some c -> is_digit c = true /\ digit c = N.of_nat k.
Proof. do 10 (destruct k as [|k]; [intros [= <-]; split; reflexivity|]). cbn. now destruct k. Qed.
Lemma digit_numeral c : is_digit c = true -> exists k, nth_error numerals k = Some c.
Proof.
  intros H. assert (E : existsb (Ascii.eqb c) numerals = true).
  { destruct c as [[] [] [] [] [] [] [] []]; try discriminate H; reflexivity. }
  apply existsb_exists in E. destruct E as (d & I & E). apply Ascii.eqb_eq in E. subst d. now apply In_nth_error.
Qed.
Lemma reads_integer s : forall p b n m, (if b : bool then integer p n else (p = [] /\ n = 0%N) \/ exists q, p = q ++ ["_"%char] /\ integer q n) ->
  int_digits s b n = Some m -> integer (p ++ s) m.
Proof.
  induction s as [|c s IH]; intros p b n m I H; cbn in H.
  - destruct b; [|discriminate]. injection H as <-. now rewrite app_nil_r.
  - destruct (is_digit c) eqn:D.
    + destruct (digit_numeral c D) as [k K]. pose proof (proj2 (numeral_digit c k K)) as V. rewrite V in H.
      replace (p ++ c :: s) with ((p ++ [c]) ++ s) by (now rewrite <- app_assoc). apply (IH _ true (10 * n + N.of_nat k)%N); [|exact H].
      destruct b; [now apply integer_next|]. destruct I as [[-> ->]|(q & -> & I)].
      * replace (10 * 0 + N.of_nat k)%N with (N.of_nat k) by reflexivity. now apply integer_digit.
      * rewrite <- app_assoc. now apply integer_apart.
    + destruct (Ascii.eqb c "_" && b) eqn:U; [|discriminate]. apply andb_true_iff in U. destruct U as [U ->]. apply Ascii.eqb_eq in U. subst c.
      replace (p ++ "_"%char :: s) with ((p ++ ["_"%char]) ++ s) by (now rewrite <- app_assoc).
      apply (IH _ false n); [|exact H]. right. now exists p.
Qed.
Lemma integer_reads w n : integer w n -> forall t, int_digits (w ++ t) false 0 = int_digits t true n.
Proof.
  induction 1 as [c k K|w n c k I IH K|w n c k I IH K]; intros t; destruct (numeral_digit c k K) as [D V].
  - cbn. rewrite D, V. reflexivity.
  - rewrite <- app_assoc, IH. cbn. now rewrite D, V.
  - rewrite <- app_assoc, IH. cbn. now rewrite D, V.
Qed.
Lemma integer_exact w n : int_digits w false 0 = Some n <-> integer w n.
Proof.
  split.
  - intros H. apply (reads_integer w [] false 0%N n); [left; now split|exact H].
  - intros I. rewrite <- (app_nil_r w). now rewrite (integer_reads w n I).
Qed.
Lemma integer_head w n : integer w n -> exists c r, w = c :: r /\ is_digit c = true.
Proof.
  induction 1 as [c k K|w n c k I IH K|w n c k I IH K].
  - exists c, []. split; [reflexivity|]. apply (numeral_digit c k K).
  - destruct IH as (d & r & -> & D). now exists d, (r ++ [c]).
  - destruct IH as (d & r & -> & D). now exists d, (r ++ ["_"%char; c]).
Qed.
Theorem literals s z : py_int s = Some z <-> literal (strip s) z.
Proof.
  unfold py_int. generalize (strip s) as w. clear s. intros w.
  assert (O : forall f r, option_map f (int_digits r false 0) = Some z <-> exists n, integer r n /\ z = f n).
  { intros f r. destruct (int_digits r false 0) as [n|] eqn:E; cbn.
    - apply integer_exact in E. split; [intros [= <-]; now exists n|]. intros (m & I & ->). apply integer_exact in I, E. congruence.
    - split; [discriminate|]. intros (m & I & _). apply integer_exact in I. congruence. }
  split.
  - destruct w as [|c w]; [discriminate|]. intros H.
    destruct (Ascii.eqb c "-") eqn:M; [apply Ascii.eqb_eq in M; subst c; apply O in H; destruct H as (n & I & ->); now constructor|].
    destruct (Ascii.eqb c "+") eqn:P; [apply Ascii.eqb_eq in P; subst c; apply O in H; destruct H as (n & I & ->); now constructor|].
    assert (H' : option_map Z.of_N (int_digits (c :: w) false 0) = Some z).
    { revert H M P. destruct c as [[] [] [] [] [] [] [] []]; try (intros H _ _; exact H); discriminate. }
    apply O in H'. destruct H' as (n & I & ->). now constructor.
  - intros [r n I|r n I|r n I]; [|apply integer_exact in I; now rewrite I|apply integer_exact in I; now rewrite I].
    assert (H' : option_map Z.of_N (int_digits r false 0) = Some (Z.of_N n)) by (apply integer_exact in I; now rewrite I).
    destruct (integer_head r n I) as (c & t & -> & D). revert D H'. clear.
    destruct c as [[] [] [] [] [] [] [] []]; try discriminate; intros _ H; exact H.
Qed.
Theorem numbers n : py_int (py_str n) = Some (Z.of_N n) /\ py_int ("+"%char :: py_str n) = Some (Z.of_N n) /\
  py_int ("-"%char :: py_str n) = Some (- Z.of_N n)%Z.
Proof.
  assert (I : int_digits (py_str n) false 0 = Some n).
  { rewrite int_of_digits; [|intros c H; apply (str_chars n c H)|left; apply str_some]. f_equal. apply str_value. }
  assert (T : forall c, In c (py_str n) -> is_space c = false) by (intros c H; apply (str_chars n c H)).
  unfold py_int. rewrite !strip_solid; [|intros c [<-|H]; [reflexivity|now apply T]|intros c [<-|H]; [reflexivity|now apply T]|exact T].
  rewrite I. split; [|split; reflexivity].
  pose proof (str_some n) as N0. pose proof (fun c H => proj1 (proj2 (str_chars n c H))) as D.
  destruct (py_str n) as [|c s]; [now destruct N0|]. destruct (sign_no_digit c (D c (or_introl eq_refl))) as [M P].
  destruct c as [[] [] [] [] [] [] [] []]; first [now destruct M | now destruct P | now rewrite I].
Qed.

(** * The file *)

Definition pair_of (cls : text) (i : N) : list decl :=
  [Struct ("S"%char :: py_str i); Variable_of cls ("S"%char :: py_str i) ("b"%char :: py_str i)].

Lemma str_identifier c n : In c letters -> identifier (c :: py_str n).
Proof. intros H. exists c, (py_str n). split; [reflexivity|]. split; [exact H|]. intros d I. apply in_or_app. right. apply (str_chars n d I). Qed.
Lemma letter_S : In "S"%char letters. Proof. vm_compute. tauto. Qed.
Lemma letter_b : In "b"%char letters. Proof. vm_compute. tauto. Qed.
Lemma turn_lines cls i rest : (turn cls i ++ rest)%list =
  ((txt "struct " ++ ("S"%char :: py_str i) ++ txt " { int x; };") ++ "010"%char ::
    ((cls ++ txt "<" ++ ("S"%char :: py_str i) ++ txt "> " ++ ("b"%char :: py_str i) ++ txt ";") ++ "010"%char :: rest))%list.
Proof.
  unfold turn, newline.
  change (txt "struct S") with (txt "struct " ++ ["S"%char])%list. change (txt "<S") with (txt "<" ++ ["S"%char])%list.
  change (txt "> b") with (txt "> " ++ ["b"%char])%list.
  repeat (rewrite <- !app_assoc; cbn [app]). reflexivity.
Qed.
Lemma turns_state cls l : file_states (flat_map (turn cls) l) (flat_map (pair_of cls) l).
Proof.
  induction l as [|i l IH]; [constructor|].
  change (flat_map (turn cls) (i :: l)) with (turn cls i ++ flat_map (turn cls) l)%list. rewrite turn_lines.
  change (flat_map (pair_of cls) (i :: l)) with
    (Struct ("S"%char :: py_str i) :: Variable_of cls ("S"%char :: py_str i) ("b"%char :: py_str i) :: flat_map (pair_of cls) l).
  constructor; [constructor; apply str_identifier, letter_S|].
  constructor; [constructor; apply str_identifier; [apply letter_S|apply letter_b]|exact IH].
Qed.

Lemma names_pairs cls l : names (flat_map (pair_of cls) l) = flat_map (fun i => ["S"%char :: py_str i; "b"%char :: py_str i]) l.
Proof. unfold names. induction l as [|i l IH]; [reflexivity|]. cbn [flat_map pair_of app]. now rewrite IH. Qed.
Lemma names_distinct l : NoDup l -> NoDup (flat_map (fun i => ["S"%char :: py_str i; "b"%char :: py_str i]) l).
Proof.
  induction 1 as [|i l N _ IH]; [constructor|]. cbn [flat_map app]. constructor; [|constructor; [|exact IH]].
  - intros [E|I]; [discriminate E|]. apply in_flat_map in I. destruct I as (j & J & [E|[E|[]]]); [|discriminate E].
    injection E as E. apply str_inj in E. now subst.
  - intros I. apply in_flat_map in I. destruct I as (j & J & [E|[E|[]]]); [discriminate E|].
    injection E as E. apply str_inj in E. now subst.
Qed.
Lemma declared_before cls l : forall a c t n b, flat_map (pair_of cls) l = (a ++ Variable_of c t n :: b)%list -> In (Struct t) a.
Proof.
  induction l as [|i l IH]; intros a c t n b E; [now destruct a|]. cbn [flat_map pair_of app] in E.
  destruct a as [|d1 a]; [discriminate E|]. injection E as <- E. destruct a as [|d2 a].
  - injection E as _ <- _ _. now left.
  - injection E as <- E. right. right. exact (IH _ _ _ _ _ E).
Qed.
Lemma range_distinct z : NoDup (range z).
Proof.
  unfold range. apply Injective_map_NoDup; [|apply seq_NoDup]. intros x y H. lia.
Qed.
Theorem pairs_compile cls h z : compiles (Include h :: flat_map (pair_of cls) (range z)).
Proof.
  split.
  - change (names (Include h :: flat_map (pair_of cls) (range z))) with (names (flat_map (pair_of cls) (range z))).
    rewrite names_pairs. apply names_distinct, range_distinct.
  - intros a c t n b E. destruct a as [|d a]; [discriminate E|]. injection E as _ E. right. exact (declared_before _ _ _ _ _ _ _ E).
Qed.

Definition type_of (d : decl) : list text := match d with Variable_of _ t _ => [t] | _ => [] end.
Lemma types_pairs cls l : flat_map type_of (flat_map (pair_of cls) l) = map (fun i => "S"%char :: py_str i) l.
Proof. induction l as [|i l IH]; [reflexivity|]. cbn [flat_map pair_of app type_of map]. now rewrite IH. Qed.
Lemma NoDup_parts {A} (x y : list A) t : NoDup (x ++ y) -> In t x -> In t y -> False.
Proof.
  induction x as [|a x IH]; cbn; [tauto|]. inversion 1; subst. intros [-> |I] J; [|auto].
  match goal with H : ~ _ |- _ => apply H end. apply in_or_app. now right.
Qed.
Theorem pairs_count cls h z : counts cls (Include h :: flat_map (pair_of cls) (range z)) (Z.to_nat z).
Proof.
  assert (L : List.length (range z) = Z.to_nat z) by (unfold range; now rewrite map_length, seq_length).
  unfold counts. cbn [filter]. repeat split.
  - rewrite <- L. generalize (range z). induction l as [|i l IH]; [reflexivity|]. cbn. now rewrite IH.
  - rewrite <- L. generalize (range z). induction l as [|i l IH]; [reflexivity|]. cbn. now rewrite IH.
  - intros c t n [H|H]; [discriminate|]. apply in_flat_map in H. destruct H as (i & _ & [H|[H|[]]]); [discriminate|]. now injection H.
  - intros a b c c' t n n' A B E.
    assert (N : NoDup (flat_map type_of (Include h :: flat_map (pair_of cls) (range z)))).
    { change (flat_map type_of (Include h :: flat_map (pair_of cls) (range z))) with (flat_map type_of (flat_map (pair_of cls) (range z))).
      rewrite types_pairs. apply Injective_map_NoDup; [|apply range_distinct]. intros x y H. injection H as H. now apply str_inj. }
    rewrite E, flat_map_app in N. apply (NoDup_parts _ _ t N); apply in_flat_map; [eexists; split; [exact A|]|eexists; split; [exact B|]]; now left.
Qed.

Lemma same_text_eq a : forall b, same_text a b = true <-> a = b.
Proof.
  induction a as [|x a IH]; intros [|y b]; cbn [same_text]; try (split; congruence).
  rewrite andb_true_iff, IH, Ascii.eqb_eq. split; [intros [-> ->]; reflexivity|intros E; injection E; auto].
Qed.

Definition header_of (cls : text) : text := if same_text cls (txt "opt::option") then txt "opt/option.hpp" else txt "optional".
Definition decls_of (cls : text) (z : Z) : list decl := Include (header_of cls) :: flat_map (pair_of cls) (range z).
Lemma table_states mode p c : generation_table mode = Some (p, c) ->
  mode = c /\ In c [txt "opt::option"; txt "std::optional"] /\ states p (Include (header_of c)).
Proof.
  unfold generation_table. destruct (same_text mode (txt "opt::option")) eqn:A.
  - apply same_text_eq in A. intros [= <- <-]. split; [exact A|]. split; [now left|]. exact (states_include (txt "opt/option.hpp")).
  - destruct (same_text mode (txt "std::optional")) eqn:B; [|discriminate].
    apply same_text_eq in B. intros [= <- <-]. split; [exact B|]. split; [right; now left|]. exact (states_include (txt "optional")).
Qed.
Lemma table_known c : In c [txt "opt::option"; txt "std::optional"] -> exists p, generation_table c = Some (p, c).
Proof. intros [<-|[<-|[]]]; eexists; reflexivity. Qed.

Theorem written mode path number more out content : generate (mode :: path :: number :: more) = Wrote out content ->
  out = strip path /\ exists z ds, py_int number = Some z /\ In (strip mode) [txt "opt::option"; txt "std::optional"] /\
    file_states content ds /\ compiles ds /\ counts (strip mode) ds (Z.to_nat z) /\
    nth_error ds 0 = Some (Include (if same_text (strip mode) (txt "opt::option") then txt "opt/option.hpp" else txt "optional")).
Proof.
  cbn [generate]. destruct (py_int number) as [z|]; [|discriminate].
  destruct (generation_table (strip mode)) as [[p c]|] eqn:T; [|discriminate]. intros [= <- <-]. split; [reflexivity|].
  destruct (table_states _ _ _ T) as (E & I & S). rewrite E. exists z, (decls_of c z).
  split; [reflexivity|]. split; [exact I|]. split.
  - change ([newline] ++ flat_map (turn c) (range z))%list with ("010"%char :: flat_map (turn c) (range z)). constructor; [exact S|apply turns_state].
  - split; [apply pairs_compile|]. split; [apply pairs_count|reflexivity].
Qed.
Theorem writes mode path number more : In (strip mode) [txt "opt::option"; txt "std::optional"] -> py_int number <> None ->
  exists content, generate (mode :: path :: number :: more) = Wrote (strip path) content.
Proof.
  intros M N. cbn [generate]. destruct (py_int number) as [z|]; [|now destruct N].
  destruct (table_known _ M) as [p ->]. eexists. reflexivity.
Qed.
Theorem refuses args out content : generate args = Wrote out content ->
  exists mode path number more, args = mode :: path :: number :: more /\
    In (strip mode) [txt "opt::option"; txt "std::optional"] /\ py_int number <> None.
Proof.
  destruct args as [|m [|p [|k r]]]; try discriminate. intros H. exists m, p, k, r. split; [reflexivity|].
  destruct (written _ _ _ _ _ _ H) as (_ & z & ds & E & I & _). split; [exact I|]. now rewrite E.
Qed.
Lemma with_pairs cls cls' l : map (with_class cls') (flat_map (pair_of cls) l) = flat_map (pair_of cls') l.
Proof. induction l as [|i l IH]; [reflexivity|]. cbn [flat_map pair_of app map with_class]. now rewrite IH. Qed.
Theorem comparable p p' k more more' out out' a b :
  generate (txt "opt::option" :: p :: k :: more) = Wrote out a -> generate (txt "std::optional" :: p' :: k :: more') = Wrote out' b ->
  exists ds ds', file_states a ds /\ file_states b ds' /\ map (with_class (txt "std::optional")) (tl ds) = tl ds'.
Proof.
  cbn [generate]. destruct (py_int k) as [z|]; [|discriminate].
  change (generation_table (strip (txt "opt::option"))) with (Some (txt "#include <opt/option.hpp>", txt "opt::option")).
  change (generation_table (strip (txt "std::optional"))) with (Some (txt "#include <optional>", txt "std::optional")).
  intros [= <- <-] [= <- <-]. exists (decls_of (txt "opt::option") z), (decls_of (txt "std::optional") z).
  split; [|split].
  - apply (states_line (txt "#include <opt/option.hpp>")); [exact (states_include (txt "opt/option.hpp"))|apply turns_state].
  - apply (states_line (txt "#include <optional>")); [exact (states_include (txt "optional"))|apply turns_state].
  - unfold decls_of. cbn [tl]. apply with_pairs.
Qed.
Theorem stops mode path number more z : py_int number = Some z -> ~ In (strip mode) [txt "opt::option"; txt "std::optional"] ->
  generate (mode :: path :: number :: more) = Stopped (txt "Invalid mode: " ++ strip mode).
Proof.
  intros N M. cbn [generate]. rewrite N. destruct (generation_table (strip mode)) as [[p c]|] eqn:T; [|reflexivity].
  destruct (table_states _ _ _ T) as (E & I & _). rewrite E in M. now destruct M.
Qed.
Theorem raises args : generate args = Raised <->
  (List.length args < 3)%nat \/ exists mode path number more, args = mode :: path :: number :: more /\ py_int number = None.
Proof.
  destruct args as [|m [|p [|k r]]]; try (split; [intros _; left; cbn; lia|reflexivity]). cbn [generate].
  destruct (py_int k) as [z|] eqn:K.
  - destruct (generation_table (strip m)) as [[x c]|]; (split; [discriminate|]);
      (intros [L|(a & b & d & e & [= <- <- <- <-] & N)]; [cbn in L; lia|congruence]).
  - split; [|reflexivity]. intros _. right. now exists m, p, k, r.
Qed.
