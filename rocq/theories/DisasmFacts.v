(** The parser of the disassembly meets its description. *)
From Coq Require Import ZArith NArith Bool List Ascii String Lia PeanoNat ZifyBool ZifyNat ZifyN.
From Verif Require Import PyText Examples Codegen CodegenFacts ExamplesSpec ExamplesFacts Asm Disasm DisasmSpec.
Import ListNotations.
Open Scope N_scope.
Open Scope list_scope.

(** * Characters *)

Lemma word_char_letters c : word_char c = true <-> In c letters.
Proof.
  assert (E : word_char c = existsb (Ascii.eqb c) letters) by (destruct c as [[] [] [] [] [] [] [] []]; vm_compute; reflexivity).
  rewrite E, existsb_exists. split; [intros [x [H X]]; apply Ascii.eqb_eq in X; subst; exact H|].
  intros H. exists c. split; [exact H|apply Ascii.eqb_refl].
Qed.
Lemma digit_char c : is_digit c = true <-> In c digit_chars.
Proof.
  assert (E : is_digit c = existsb (Ascii.eqb c) digit_chars) by (destruct c as [[] [] [] [] [] [] [] []]; vm_compute; reflexivity).
  rewrite E, existsb_exists. split; [intros [x [H X]]; apply Ascii.eqb_eq in X; subst; exact H|].
  intros H. exists c. split; [exact H|apply Ascii.eqb_refl].
Qed.
Lemma not_letter c : word_char c = false <-> ~ In c letters.
Proof. rewrite <- word_char_letters. destruct (word_char c); split; congruence. Qed.
Lemma digit_word c : is_digit c = true -> word_char c = true.
Proof. unfold word_char. intros ->. reflexivity. Qed.

Lemma contains_occurs p s : contains p s = true <-> occurs p s.
Proof.
  unfold occurs. induction s as [|c s IH]; simpl.
  - destruct (after_prefix p []) eqn:E.
    + apply after_prefix_spec in E. split; [intros _; exists [], t; exact E|reflexivity].
    + split; [discriminate|]. intros [a [b H]]. destruct a; [|discriminate]. simpl in H.
      assert (X : after_prefix p [] = Some b) by (apply after_prefix_spec; exact H). congruence.
  - destruct (after_prefix p (c :: s)) eqn:E.
    + apply after_prefix_spec in E. split; [intros _; exists [], t; exact E|reflexivity].
    + rewrite IH. split.
      * intros [a [b ->]]. exists (c :: a), b. reflexivity.
      * intros [[|x a] [b H]]; simpl in H.
        -- assert (X : after_prefix p (c :: s) = Some b) by (apply after_prefix_spec; exact H). congruence.
        -- injection H as -> ->. exists a, b. reflexivity.
Qed.

(** * Names *)

Definition named (s n : text) : Prop :=
  exists t, s = n ++ "("%char :: t /\ occurs (txt ")>") t /\ n <> [] /\ forall c, In c n -> is_space c = false.
Lemma closes_spec s : closes s = true <-> exists t, s = "("%char :: t /\ occurs (txt ")>") t.
Proof.
  destruct s as [|c t]; simpl; [split; [discriminate|intros [t [H _]]; discriminate]|].
  rewrite andb_true_iff, Ascii.eqb_eq, contains_occurs. split.
  - intros [-> O]. exists t. split; [reflexivity|exact O].
  - intros [u [H O]]. injection H as -> ->. split; [reflexivity|exact O].
Qed.
Lemma named_cons c s n : named (c :: s) (c :: n) <-> is_space c = false /\ (named s n \/ n = [] /\ closes s = true).
Proof.
  rewrite closes_spec. split.
  - intros [t [E [O [_ S]]]]. injection E as ->. split; [apply S; left; reflexivity|].
    destruct n as [|d n]; [right; split; [reflexivity|]; exists t; split; [reflexivity|exact O]|].
    left. exists t. split; [reflexivity|]. split; [exact O|]. split; [discriminate|]. intros x X. apply S. right. exact X.
  - intros [S [[t [-> [O [N Q]]]] | [-> [t [-> O]]]]].
    + exists t. split; [reflexivity|]. split; [exact O|]. split; [discriminate|]. intros x [<-|X]; [exact S|apply Q, X].
    + exists t. split; [reflexivity|]. split; [exact O|]. split; [discriminate|]. intros x [<-|[]]. exact S.
Qed.
Lemma named_first c s n : named (c :: s) n -> exists m, n = c :: m.
Proof. intros [t [E [_ [N _]]]]. destruct n as [|d m]; [contradiction|]. injection E as -> _. exists m. reflexivity. Qed.
Lemma name_here_some s : forall n, name_here s = Some n -> named s n.
Proof.
  induction s as [|c s IH]; simpl; intros n H; [discriminate|].
  destruct (is_space c) eqn:S; [discriminate|].
  destruct (name_here s) as [m|] eqn:E.
  - injection H as <-. apply named_cons. split; [exact S|]. left. apply IH. reflexivity.
  - destruct (closes s) eqn:C; [|discriminate]. injection H as <-. apply named_cons. split; [exact S|]. right.
    split; [reflexivity|exact C].
Qed.
Lemma name_here_long s : forall n, named s n -> exists m, name_here s = Some m /\ (List.length n <= List.length m)%nat.
Proof.
  induction s as [|c s IH]; intros n H; [destruct H as [t [E [_ [N _]]]]; destruct n; [contradiction|discriminate]|].
  destruct (named_first _ _ _ H) as [k ->]. apply named_cons in H as [S H]. simpl. rewrite S.
  destruct H as [H | [-> H]].
  - destruct (IH _ H) as [m [-> L]]. exists (c :: m). split; [reflexivity|simpl; lia].
  - destruct (name_here s) as [m|]; [exists (c :: m); split; [reflexivity|simpl; lia]|]. rewrite H.
    exists [c]. split; [reflexivity|simpl; lia].
Qed.

Definition named_at (s p n : text) : Prop := exists r, s = p ++ r /\ named r n.
Lemma name_after_some s n : name_after s = Some n -> exists p, named_at s p n /\
  (forall p' n', named_at s p' n' -> (List.length p <= List.length p')%nat) /\
  (forall n', named_at s p n' -> (List.length n' <= List.length n)%nat).
Proof.
  induction s as [|c s IH]; [discriminate|]. intros H. cbn -[name_here] in H.
  destruct (name_here (c :: s)) as [m|] eqn:E.
  - injection H as ->. exists []. split; [exists (c :: s); split; [reflexivity|apply name_here_some, E]|].
    split; [intros; simpl; lia|]. intros n' [r [R N]]. simpl in R. subst r.
    destruct (name_here_long _ _ N) as [m [M L]]. rewrite E in M. injection M as <-. exact L.
  - destruct (IH H) as [p [[r [R N]] [P L]]]. subst s. exists (c :: p). split; [exists r; split; [reflexivity|exact N]|].
    split.
    + intros p' n' [r' [R' N']]. destruct p' as [|d p'].
      * simpl in R'. subst r'. destruct (name_here_long _ _ N') as [m [M _]]. rewrite E in M. discriminate.
      * injection R' as <- R'. simpl. apply le_n_S. apply (P p' n'). exists r'. split; [exact R'|exact N'].
    + intros n' [r' [R' N']]. injection R' as R'. apply L. exists r'. split; [exact R'|exact N'].
Qed.
Lemma name_after_none s : name_after s = None -> forall p n, ~ named_at s p n.
Proof.
  induction s as [|c s IH]; intros H p n [r [R N]].
  - destruct p; [|discriminate]. simpl in R. subst r. destruct (name_here_long _ _ N) as [m [M _]]. discriminate.
  - cbn -[name_here] in H. destruct (name_here (c :: s)) as [m|] eqn:E; [discriminate|].
    destruct p as [|d p]; simpl in R.
    + subst r. destruct (name_here_long _ _ N) as [m [M _]]. congruence.
    + injection R as <- R. apply (IH H p n). exists r. split; [exact R|exact N].
Qed.
Lemma candidate_named line p n : candidate line p n <-> exists s, line = "<"%char :: s /\ named_at s p n.
Proof.
  unfold candidate, named_at, named. split.
  - intros [t [E [O [N S]]]]. exists (p ++ n ++ "("%char :: t). split; [exact E|]. exists (n ++ "("%char :: t).
    split; [reflexivity|]. exists t. auto.
  - intros [s [-> [r [-> [t [-> [O [N S]]]]]]]]. exists t. auto.
Qed.
Lemma app_length_eq (A : Type) (a b c d : list A) : a ++ b = c ++ d -> List.length a = List.length c -> a = c /\ b = d.
Proof.
  revert c. induction a as [|x a IH]; intros [|y c] H L; simpl in *; try discriminate; [auto|].
  injection H as -> H. injection L as L. destruct (IH _ H L) as [-> ->]. auto.
Qed.
Lemma heading_unique line n m : heading line n -> heading line m -> n = m.
Proof.
  intros [p [C [P L]]] [q [D [Q M]]].
  assert (E : List.length p = List.length q) by (specialize (P _ _ D); specialize (Q _ _ C); lia).
  assert (X : p = q).
  { destruct C as [t [C _]], D as [u [D _]]. rewrite C in D. injection D as D. apply (app_length_eq _ _ _ _ _ D E). }
  subst q. assert (F : List.length n = List.length m) by (specialize (L _ D); specialize (M _ C); lia).
  destruct C as [t [C _]], D as [u [D _]]. rewrite C in D. injection D as D. apply app_inv_head in D.
  apply (app_length_eq _ _ _ _ _ D F).
Qed.
Lemma function_name_heading line n : function_name line = Some n <-> heading line n.
Proof.
  assert (S : forall m, function_name line = Some m -> heading line m).
  { intros m H. destruct line as [|c s]; [discriminate|]. simpl in H. destruct (Ascii.eqb c "<") eqn:E; [|discriminate].
    apply Ascii.eqb_eq in E. subst c. destruct (name_after_some _ _ H) as [p [N [P L]]]. exists p.
    split; [apply candidate_named; exists s; split; [reflexivity|exact N]|]. split.
    - intros p' n' C. apply candidate_named in C as [s' [E C]]. injection E as <-. apply (P p' n' C).
    - intros n' C. apply candidate_named in C as [s' [E C]]. injection E as <-. apply (L n' C). }
  split; [apply S|]. intros H. destruct (function_name line) as [m|] eqn:E.
  - rewrite (heading_unique _ _ _ H (S m eq_refl)). reflexivity.
  - destruct H as [p [C _]]. apply candidate_named in C as [s [-> C]]. simpl in E.
    exfalso. exact (name_after_none _ E _ _ C).
Qed.

(** The usual case: nothing but the return type, if any, before the name, and no parenthesis closer to it than white
    space. *)
Lemma app_app (A : Type) (a b c d : list A) : a ++ b = c ++ d ->
  (exists e, a = c ++ e /\ d = e ++ b) \/ (exists e, c = a ++ e /\ b = e ++ d).
Proof.
  revert c. induction a as [|x a IH]; intros c H; [right; exists c; auto|].
  destruct c as [|y c]; [left; exists (x :: a); auto|]. injection H as -> H. destruct (IH _ H) as [[e [-> E]] | [e [-> E]]].
  - left. exists e. auto.
  - right. exists e. auto.
Qed.
Lemma heading_usual ret n args : (ret = [] \/ exists r c, ret = r ++ [c] /\ is_space c = true) ->
  ~ In "("%char ret -> n <> [] -> (forall c, In c n -> is_space c = false) ->
  (forall a b, args = a ++ "("%char :: b -> exists c, In c a /\ is_space c = true) -> occurs (txt ")>") args ->
  heading ("<"%char :: ret ++ n ++ "("%char :: args) n.
Proof.
  intros R P N S A O. exists ret. split; [exists args; auto|]. split.
  - intros p' n' [t [E [_ [N' S']]]]. injection E as E.
    destruct R as [-> | [r [c [-> C]]]]; [simpl; lia|].
    destruct (Nat.le_gt_cases (List.length (r ++ [c])) (List.length p')) as [L|L]; [exact L|exfalso].
    rewrite <- app_assoc in E. simpl in E. rewrite app_length in L. simpl in L.
    destruct (app_app _ _ _ _ _ E) as [[e [-> E']] | [e [-> E']]].
    + destruct (app_app _ _ _ _ _ E') as [[[|x k] [K E2]] | [[|x k] [K E2]]]; simpl in E2; injection E2 as E3 _.
      * subst c. discriminate C.
      * subst x n'. rewrite (S' c) in C; [discriminate|]. apply in_or_app. right. left. reflexivity.
      * subst c. discriminate C.
      * subst x e. apply P. rewrite !in_app_iff. simpl. tauto.
    + rewrite app_length in L. destruct e as [|x e]; [|simpl in L; lia]. destruct n' as [|d n']; [contradiction|].
      simpl in E'. injection E' as -> _. rewrite (S' d) in C; [discriminate|left; reflexivity].
  - intros n' [t [E [_ [N' S']]]]. injection E as E. apply app_inv_head in E.
    destruct (app_app _ _ _ _ _ E) as [[e [-> E']] | [[|x e] [-> E']]]; [rewrite app_length; lia|rewrite app_length; simpl; lia|].
    exfalso. simpl in E'. injection E' as <- E'. destruct (A _ _ E') as [c [I C]]. rewrite (S' c) in C; [discriminate|].
    apply in_or_app. right. right. exact I.
Qed.

(** * Numbers *)

Lemma hex_char_read d : d < 16 -> hex_digit (hex_char d) = Some d.
Proof.
  intros L. assert (H : forallb (fun d => match hex_digit (hex_char d) with Some x => x =? d | None => false end)
    [0; 1; 2; 3; 4; 5; 6; 7; 8; 9; 10; 11; 12; 13; 14; 15] = true) by (vm_compute; reflexivity).
  rewrite forallb_forall in H. specialize (H d). destruct (hex_digit (hex_char d)) as [x|].
  - f_equal. apply N.eqb_eq. apply H. simpl. lia.
  - discriminate H. simpl. lia.
Qed.
Lemma hex_digit_char c x : hex_digit c = Some x -> c = hex_char x /\ x < 16.
Proof.
  intros H. assert (E : match hex_digit c with Some x => Ascii.eqb c (hex_char x) && (x <? 16) | None => true end = true)
    by (destruct c as [[] [] [] [] [] [] [] []]; vm_compute; reflexivity).
  rewrite H in E. apply andb_true_iff in E as [E L]. apply Ascii.eqb_eq in E. split; [exact E|lia].
Qed.
Lemma hex_digits_snoc d : forall m c, hex_digits m (d ++ [c]) =
  bind (hex_digits m d) (fun v => option_map (fun x => 16 * v + x) (hex_digit c)).
Proof.
  induction d as [|x d IH]; intros m c; cbn -[N.mul N.add]; [destruct (hex_digit c); reflexivity|].
  destruct (hex_digit x); simpl; [apply IH|reflexivity].
Qed.
Lemma hex_digits_zero d : hex_digits 0 d = Some 0 -> forall c r, d = c :: r -> c = "0"%char.
Proof.
  assert (G : forall d m n, hex_digits m d = Some n -> m <= n).
  { induction d0 as [|x d0 IH]; intros m n; cbn -[N.mul N.add]; [intros E; injection E; lia|].
    destruct (hex_digit x); cbn [bind]; [|discriminate]. intros E. apply IH in E. lia. }
  intros H c r ->. cbn -[N.mul N.add] in H. destruct (hex_digit c) as [x|] eqn:E; [|discriminate]. simpl bind in H.
  apply G in H. apply hex_digit_char in E as [-> _]. replace x with 0 by lia. reflexivity.
Qed.
Lemma hex_from_spec fuel : forall n acc, n < 2 ^ N.of_nat fuel -> fuel <> O -> exists d, hex_from fuel n acc = d ++ acc /\
  d <> [] /\ hex_digits 0 d = Some n /\ (forall r, d = "0"%char :: r -> r = []).
Proof.
  induction fuel as [|fuel IH]; intros n acc L F; [contradiction|]. cbn -[N.modulo N.div N.ltb].
  destruct (n <? 16) eqn:E.
  - exists [hex_char n]. rewrite (N.mod_small n 16) by lia. repeat split; [discriminate| |intros r H; injection H; auto].
    cbn -[hex_char N.mul N.add]. rewrite hex_char_read by lia. cbn [bind]. rewrite ?N.mul_0_r, ?N.add_0_l; reflexivity.
  - assert (D : n / 16 < 2 ^ N.of_nat fuel).
    { apply N.div_lt_upper_bound; [lia|]. replace (N.of_nat (S fuel)) with (N.succ (N.of_nat fuel)) in L by lia.
      rewrite N.pow_succ_r' in L. lia. }
    destruct fuel as [|f']; [change (2 ^ N.of_nat 0) with 1 in D; assert (X : n / 16 = 0) by lia; apply N.div_small_iff in X; lia|].
    destruct (IH (n / 16) (hex_char (n mod 16) :: acc) D ltac:(discriminate)) as [d [Q [N [V Z]]]].
    assert (M : n mod 16 < 16) by (apply N.mod_lt; lia).
    exists (d ++ [hex_char (n mod 16)]). split; [rewrite Q, <- app_assoc; reflexivity|].
    split; [destruct d; discriminate|]. split.
    + rewrite hex_digits_snoc, V. cbn -[hex_char N.mul N.add N.div N.modulo]. rewrite hex_char_read by exact M. cbn [option_map].
      f_equal. symmetry. apply N.div_mod'.
    + intros r H. destruct d as [|x d]; [contradiction|]. simpl in H. injection H as -> _.
      specialize (Z _ eq_refl). subst d. change (hex_digits 0 ["0"%char]) with (Some 0) in V. injection V as V.
      symmetry in V. apply N.div_small_iff in V; lia.
Qed.
Lemma size_nat_bound n : n < 2 ^ N.of_nat (S (N.size_nat n)).
Proof.
  destruct n as [|p]; [reflexivity|]. unfold N.size_nat.
  assert (H : forall p, N.pos p < 2 ^ N.of_nat (Pos.size_nat p)).
  { induction p0 as [p0 IH|p0 IH|]; [| |reflexivity]; simpl Pos.size_nat;
      replace (N.of_nat (S (Pos.size_nat p0))) with (N.succ (N.of_nat (Pos.size_nat p0))) by lia; rewrite N.pow_succ_r'; lia. }
  replace (N.of_nat (S (Pos.size_nat p))) with (N.succ (N.of_nat (Pos.size_nat p))) by lia. rewrite N.pow_succ_r'.
  specialize (H p). lia.
Qed.
Lemma py_hex_spec n : in_hex n (py_hex n).
Proof.
  unfold py_hex. destruct (hex_from_spec (S (N.size_nat n)) n [] (size_nat_bound n) ltac:(discriminate)) as [d [E H]].
  exists d. rewrite E, app_nil_r. split; [reflexivity|exact H].
Qed.
Lemma hex_unique d : forall e n, d <> [] -> e <> [] -> hex_digits 0 d = Some n -> hex_digits 0 e = Some n ->
  (forall r, d = "0"%char :: r -> r = []) -> (forall r, e = "0"%char :: r -> r = []) -> d = e.
Proof.
  induction d as [|c d IH] using rev_ind; intros e n D E Hd He Zd Ze; [contradiction|].
  destruct e as [|c' e _] using rev_ind; [contradiction|].
  rewrite hex_digits_snoc in Hd, He.
  destruct (hex_digits 0 d) as [v|] eqn:V; [|discriminate]. destruct (hex_digits 0 e) as [v'|] eqn:V'; [|discriminate].
  cbn [bind] in Hd, He. destruct (hex_digit c) as [x|] eqn:X; [|discriminate]. destruct (hex_digit c') as [x'|] eqn:X'; [|discriminate].
  cbn [option_map] in Hd, He. assert (Hn : 16 * v + x = n) by congruence. assert (Hm : 16 * v' + x' = n) by congruence. clear Hd He. apply hex_digit_char in X as [-> X], X' as [-> X'].
  assert (v = v') by lia. assert (x = x') by lia. subst v' x'. f_equal.
  assert (L : forall f y v, (forall r, f ++ [y] = "0"%char :: r -> r = []) -> hex_digits 0 f = Some v -> v = 0 -> f = []).
  { intros f y w Z W ->. destruct f as [|z f]; [reflexivity|]. rewrite (hex_digits_zero _ W z f eq_refl) in Z.
    specialize (Z _ eq_refl). destruct f; discriminate. }
  destruct d as [|z d]; [injection V as <-; symmetry; apply (L e (hex_char x) 0 Ze V' eq_refl)|].
  destruct e as [|z' e]; [injection V' as <-; apply (L (z :: d) (hex_char x) 0 Zd V eq_refl)|].
  apply (IH (z' :: e) v); try discriminate; try assumption; try reflexivity.
  - intros r R. injection R as -> ->. specialize (Zd _ eq_refl). destruct r; [reflexivity|discriminate].
  - intros r R. injection R as -> ->. specialize (Ze _ eq_refl). destruct r; [reflexivity|discriminate].
Qed.
Lemma in_hex_unique n h : in_hex n h <-> h = py_hex n.
Proof.
  split; [|intros ->; apply py_hex_spec]. intros [d [-> [D [V Z]]]]. destruct (py_hex_spec n) as [e [-> [E [W Y]]]].
  f_equal. apply (hex_unique d e n); assumption.
Qed.

(** * Words *)

Lemma stuck_word w : forall s, (forall c, In c w -> word_char c = true) -> convert Stuck (w ++ s) = w ++ convert Stuck s.
Proof.
  induction w as [|c w IH]; intros s H; [reflexivity|]. simpl. rewrite (H c (or_introl eq_refl)). f_equal. apply IH.
  intros d D. apply H. right. exact D.
Qed.
Lemma stuck_free s : (forall c r, s = c :: r -> word_char c = false) -> convert Stuck s = convert Free s.
Proof.
  destruct s as [|c s]; [reflexivity|]. intros H. simpl. rewrite (H c s eq_refl).
  destruct (is_digit c) eqn:D; [apply digit_word in D; rewrite (H c s eq_refl) in D; discriminate|reflexivity].
Qed.
Lemma number_word w : forall ds s, (forall c, In c w -> word_char c = true) -> (forall c r, s = c :: r -> word_char c = false) ->
  convert (Number ds) (w ++ s) =
  if forallb is_digit w then py_hex (digits_value (ds ++ w)) ++ match s with [] => [] | c :: r => c :: convert Stuck r end
  else ds ++ w ++ convert Stuck s.
Proof.
  induction w as [|c w IH]; intros ds s H B; simpl.
  - rewrite app_nil_r. destruct s as [|c r]; simpl; [rewrite app_nil_r; reflexivity|]. rewrite (B c r eq_refl).
    destruct (is_digit c) eqn:D; [apply digit_word in D; rewrite (B c r eq_refl) in D; discriminate|reflexivity].
  - destruct (is_digit c) eqn:D; simpl.
    + rewrite IH; [|intros x X; apply H; right; exact X|exact B]. rewrite <- !app_assoc. reflexivity.
    + rewrite (H c (or_introl eq_refl)). rewrite stuck_word by (intros x X; apply H; right; exact X). reflexivity.
Qed.
Lemma free_word w s : w <> [] -> (forall c, In c w -> word_char c = true) -> (forall c r, s = c :: r -> word_char c = false) ->
  convert Free (w ++ s) =
  if forallb is_digit w then py_hex (digits_value w) ++ match s with [] => [] | c :: r => c :: convert Stuck r end
  else w ++ convert Stuck s.
Proof.
  destruct w as [|c w]; [contradiction|]. intros _ H B. simpl. destruct (is_digit c); simpl.
  - rewrite number_word; [|intros x X; apply H; right; exact X|exact B]. reflexivity.
  - rewrite (H c (or_introl eq_refl)). rewrite stuck_word by (intros x X; apply H; right; exact X). reflexivity.
Qed.
Lemma decimal_digits w : decimal w <-> forallb is_digit w = true.
Proof. unfold decimal. rewrite forallb_forall. split; intros H c C; apply digit_char, H, C. Qed.
Lemma word_chars w : (forall c, In c w -> In c letters) -> forall c, In c w -> word_char c = true.
Proof. intros H c C. apply word_char_letters, H, C. Qed.
Lemma no_word s : (forall c r, s = c :: r -> ~ In c letters) -> forall c r, s = c :: r -> word_char c = false.
Proof. intros H c r E. apply not_letter. exact (H c r E). Qed.

Local Opaque py_hex.
Lemma convert_hexed ts us : hexed ts us -> forall s, tokens s ts -> convert Free s = shown us.
Proof.
  induction 1 as [|c ts us H IH|w ts us D H IH|w h ts us D X A H IH|w h c x ts us D X H IH]; intros s T.
  - inversion T. reflexivity.
  - inversion T as [|c' s' ts' N T'|]; subst. simpl. apply not_letter in N. rewrite N.
    destruct (is_digit c) eqn:G; [apply digit_word in G; congruence|]. f_equal. apply IH. assumption.
  - inversion T as [| |w' s' ts' N L B T']; subst.
    rewrite (free_word w s' N (word_chars w L) (no_word s' B)).
    destruct (forallb is_digit w) eqn:F; [exfalso; apply D; apply decimal_digits; exact F|].
    simpl. f_equal. rewrite stuck_free by (apply no_word, B). apply IH. exact T'.
  - inversion T as [| |w' s' ts' N L B T']; subst.
    rewrite (free_word w s' N (word_chars w L) (no_word s' B)).
    rewrite (proj1 (decimal_digits w) D). apply in_hex_unique in X. subst h. simpl. f_equal. rewrite <- (IH s' T').
    destruct s' as [|c r]; [reflexivity|]. inversion T' as [|c' s' ts' N' T''|w' s'' ts' N' L' B' T'' Q]; subst.
    + simpl. apply not_letter in N'. rewrite N'. destruct (is_digit c) eqn:G; [apply digit_word in G; congruence|].
      f_equal. apply stuck_free. intros y q ->. inversion T'' as [|y' q' ts'' N'' T3|w3 q' ts'' N'' L'' B'' T3 Q]; subst.
      * apply not_letter. exact N''.
      * exfalso. exact (A _ _ _ eq_refl).
    + exfalso. destruct w' as [|y w']; [contradiction|]. injection Q as -> _. apply (B c r eq_refl). apply L'. left. reflexivity.
  - inversion T as [| |w' s' ts' N L B T']; subst. inversion T' as [|c' s2 ts2 N' T2|]; subst.
    inversion T2 as [| |x' s3 ts3 N3 L3 B3 T3]; subst.
    rewrite (free_word w _ N (word_chars w L) (no_word _ B)). rewrite (proj1 (decimal_digits w) D).
    apply in_hex_unique in X. subst h. simpl. f_equal. f_equal. rewrite stuck_word by (apply word_chars, L3). f_equal.
    rewrite stuck_free by (apply no_word, B3). apply IH. exact T3.
Qed.

Lemma word_run s : exists w r, s = w ++ r /\ (forall c, In c w -> word_char c = true) /\ (forall c q, r = c :: q -> word_char c = false).
Proof.
  induction s as [|c s [w [r [-> [W R]]]]]; [exists [], []; split; [reflexivity|split; [intros c []|discriminate]]|].
  destruct (word_char c) eqn:E.
  - exists (c :: w), r. split; [reflexivity|]. split; [intros x [<-|X]; [exact E|apply W, X]|exact R].
  - exists [], (c :: w ++ r). split; [reflexivity|]. split; [intros x []|]. intros x q X. injection X as <- _. exact E.
Qed.
Lemma tokens_exist s : exists ts, tokens s ts.
Proof.
  remember (List.length s) as n eqn:L. assert (M : (List.length s <= n)%nat) by lia. clear L. revert s M.
  induction n as [|n IH]; intros s M.
  - destruct s; [|simpl in M; lia]. exists []. constructor.
  - destruct s as [|c s]; [exists []; constructor|]. destruct (word_char c) eqn:E.
    + destruct (word_run (c :: s)) as [w [r [Q [W R]]]]. destruct w as [|x w].
      * simpl in Q. subst r. rewrite (R c s eq_refl) in E. discriminate.
      * destruct (IH r) as [ts T]; [apply (f_equal (@List.length ascii)) in Q; rewrite app_length in Q; simpl in Q, M; lia|].
        exists (Word (x :: w) :: ts). rewrite Q. constructor; [discriminate| | |exact T].
        -- intros y Y. apply word_char_letters, W, Y.
        -- intros y q Y. apply not_letter. exact (R y q Y).
    + destruct (IH s) as [ts T]; [simpl in M; lia|]. exists (Sign c :: ts). constructor; [apply not_letter, E|exact T].
Qed.
Lemma hexed_exist ts : exists us, hexed ts us.
Proof.
  remember (List.length ts) as n eqn:L. assert (M : (List.length ts <= n)%nat) by lia. clear L. revert ts M.
  induction n as [|n IH]; intros ts M.
  - destruct ts; [|simpl in M; lia]. exists []. constructor.
  - destruct ts as [|[w|c] ts]; [exists []; constructor| |].
    + destruct (forallb is_digit w) eqn:D.
      * apply decimal_digits in D. destruct ts as [|[x|c] ts].
        -- exists [Word (py_hex (digits_value w))]. apply hexed_number; [exact D|apply py_hex_spec|discriminate|constructor].
        -- destruct (IH (Word x :: ts)) as [us U]; [simpl in *; lia|]. exists (Word (py_hex (digits_value w)) :: us).
           apply hexed_number; [exact D|apply py_hex_spec|discriminate|exact U].
        -- destruct ts as [|[x|d] ts].
           ++ exists [Word (py_hex (digits_value w)); Sign c]. apply hexed_number; [exact D|apply py_hex_spec|discriminate|].
              repeat constructor.
           ++ destruct (IH ts) as [us U]; [simpl in *; lia|]. exists (Word (py_hex (digits_value w)) :: Sign c :: Word x :: us).
              apply hexed_next; [exact D|apply py_hex_spec|exact U].
           ++ destruct (IH (Sign c :: Sign d :: ts)) as [us U]; [simpl in *; lia|]. exists (Word (py_hex (digits_value w)) :: us).
              apply hexed_number; [exact D|apply py_hex_spec|discriminate|exact U].
      * destruct (IH ts) as [us U]; [simpl in *; lia|]. exists (Word w :: us). apply hexed_word; [|exact U].
        intros X. apply decimal_digits in X. congruence.
    + destruct (IH ts) as [us U]; [simpl in *; lia|]. exists (Sign c :: us). constructor. exact U.
Qed.

(** * White space and comments *)

Lemma uncommented_before line s : uncommented line s <-> s = partition_before "#" line.
Proof.
  assert (P : uncommented line (partition_before "#" line)).
  { induction line as [|c line [IH1 IH2]]; [split; [intros []|left; reflexivity]|]. simpl. destruct (Ascii.eqb c "#") eqn:E.
    - apply Ascii.eqb_eq in E. subst c. split; [intros []|]. right. exists line. reflexivity.
    - split; [intros [->|H]; [discriminate E|exact (IH1 H)]|].
      destruct IH2 as [H | [r H]]; [left; congruence|right; exists r; simpl; congruence]. }
  split; [|intros ->; exact P]. revert P. generalize (partition_before "#" line) as t. intros t [T1 T2] [S1 S2].
  destruct T2 as [T | [r T]], S2 as [S | [q S]].
  - congruence.
  - exfalso. apply T1. rewrite <- T, S. apply in_or_app. right. left. reflexivity.
  - exfalso. apply S1. rewrite <- S, T. apply in_or_app. right. left. reflexivity.
  - rewrite T in S. symmetry in S. revert S. intros S. destruct (app_app _ _ _ _ _ S) as [[[|x e] [E F]] | [[|x e] [E F]]].
    + rewrite app_nil_r in E. exact E.
    + exfalso. simpl in F. injection F as <- _. apply S1. rewrite E. apply in_or_app. right. left. reflexivity.
    + rewrite app_nil_r in E. symmetry. exact E.
    + exfalso. simpl in F. injection F as <- _. apply T1. rewrite E. apply in_or_app. right. left. reflexivity.
Qed.
Lemma collapse_before b s : partition_before "#" (collapse b s) = collapse b (partition_before "#" s).
Proof.
  revert b. induction s as [|c s IH]; intros b; [reflexivity|]. simpl. destruct (is_space c) eqn:S.
  - assert (E : Ascii.eqb c "#" = false) by (destruct (Ascii.eqb c "#") eqn:E; [apply Ascii.eqb_eq in E; subst c; discriminate S|reflexivity]).
    rewrite E. simpl. rewrite S. destruct b; [apply IH|simpl; f_equal; apply IH].
  - simpl. destruct (Ascii.eqb c "#"); [reflexivity|]. simpl. rewrite S. f_equal. apply IH.
Qed.

Lemma collapse_blank g : forall b, blank g -> collapse b g = [] \/ collapse b g = [" "%char] /\ b = false.
Proof.
  induction g as [|c g IH]; intros b B; [left; reflexivity|]. simpl. rewrite (B c (or_introl eq_refl)).
  assert (T : collapse true g = []).
  { destruct (IH true) as [H | [_ H]]; [intros x X; apply B; right; exact X|exact H|discriminate]. }
  rewrite T. destruct b; auto.
Qed.
Lemma collapse_gap g : forall b s, blank g -> exists a, (a = [] \/ a = [" "%char] /\ b = false) /\
  exists b', collapse b (g ++ s) = a ++ collapse b' s.
Proof.
  induction g as [|c g IH]; intros b s B; [exists []; split; [left; reflexivity|]; exists b; reflexivity|].
  simpl. rewrite (B c (or_introl eq_refl)). destruct (IH true s) as [a [[-> | [_ A]] [b' E]]]; [intros x X; apply B; right; exact X| |discriminate].
  rewrite E. destruct b; [exists []|exists [" "%char]]; (split; [auto|exists b'; reflexivity]).
Qed.
Lemma collapse_word w : forall b s, w <> [] -> (forall c, In c w -> is_space c = false) -> collapse b (w ++ s) = w ++ collapse false s.
Proof.
  induction w as [|c w IH]; intros b s N W; [contradiction|]. simpl. rewrite (W c (or_introl eq_refl)). f_equal.
  destruct w as [|d w]; [reflexivity|]. apply IH; [discriminate|]. intros x X. apply W. right. exact X.
Qed.
Lemma collapse_spaced s ws : spaced s ws -> forall b, exists a z, (a = [] \/ a = [" "%char] /\ b = false) /\ blank z /\
  (ws = [] -> z = []) /\ collapse b s = a ++ joined ws ++ z.
Proof.
  assert (E0 : blank []) by (intros c []). assert (E1 : blank [" "%char]) by (intros c [<-|[]]; reflexivity).
  induction 1 as [g G|g w G N W|g w c s ws G N W C S IH]; intros b.
  - exists (collapse b g), []. split; [apply collapse_blank, G|]. rewrite app_nil_r. auto.
  - destruct (collapse_gap g b w G) as [a [A [b' E]]]. exists a, []. split; [exact A|]. split; [exact E0|]. split; [auto|].
    rewrite E. f_equal. rewrite <- (app_nil_r w) at 1. rewrite collapse_word by assumption. reflexivity.
  - destruct (collapse_gap g b (w ++ c :: s) G) as [a [A [b' E]]]. destruct (IH true) as [a' [z [[-> | [_ X]] [Z [Y F]]]]]; [|discriminate].
    rewrite E, collapse_word by assumption. simpl. rewrite C, F. simpl. destruct ws as [|v ws].
    + exists a, [" "%char]. split; [exact A|]. split; [exact E1|]. split; [discriminate|]. rewrite (Y eq_refl). reflexivity.
    + exists a, z. split; [exact A|]. split; [exact Z|]. split; [discriminate|]. f_equal. change (joined (w :: v :: ws)) with (w ++ " "%char :: joined (v :: ws)).
      rewrite <- app_assoc. reflexivity.
Qed.

Lemma spaced_words s ws : spaced s ws -> forall w, In w ws -> w <> [] /\ forall c, In c w -> is_space c = false.
Proof. induction 1; intros v V; [destruct V|destruct V as [<-|[]]; auto|destruct V as [<-|V]; auto]. Qed.
Lemma joined_first ws : (forall w, In w ws -> w <> [] /\ forall c, In c w -> is_space c = false) ->
  forall c r, joined ws = c :: r -> is_space c = false.
Proof.
  intros H c r E. destruct ws as [|w ws]; [discriminate|]. destruct (H w (or_introl eq_refl)) as [N W].
  destruct w as [|d w]; [contradiction|]. apply W. left. destruct ws; injection E; auto.
Qed.
Lemma joined_last ws : (forall w, In w ws -> w <> [] /\ forall c, In c w -> is_space c = false) ->
  forall r c, joined ws = r ++ [c] -> is_space c = false.
Proof.
  induction ws as [|w ws IH]; intros H r c E; [destruct r; discriminate|]. destruct ws as [|v ws].
  - destruct (H w (or_introl eq_refl)) as [_ W]. apply W. simpl in E. rewrite E. apply in_or_app. right. left. reflexivity.
  - change (joined (w :: v :: ws)) with (w ++ " "%char :: joined (v :: ws)) in E.
    assert (J : joined (v :: ws) <> []).
    { destruct (H v (or_intror (or_introl eq_refl))) as [N _]. destruct v; [contradiction|]. destruct ws; discriminate. }
    destruct (exists_last J) as [q [d Q]]. rewrite Q in E.
    replace (w ++ " "%char :: q ++ [d]) with ((w ++ " "%char :: q) ++ [d]) in E by (rewrite <- app_assoc; reflexivity).
    apply app_inj_tail in E as [_ <-]. apply (IH (fun x X => H x (or_intror X)) q d Q).
Qed.
Lemma strip_collapse s ws : spaced s ws -> strip (collapse false s) = joined ws.
Proof.
  intros S. destruct (collapse_spaced s ws S false) as [a [z [A [Z [_ E]]]]]. symmetry. apply trimmed_strip.
  exists a, z. split; [exact E|]. split; [destruct A as [-> | [-> _]]; [intros c []|intros c [<-|[]]; reflexivity]|].
  split; [exact Z|]. split; [exact (joined_first ws (spaced_words s ws S))|exact (joined_last ws (spaced_words s ws S))].
Qed.

Lemma spaced_tail c s ws : is_space c = true -> spaced (c :: s) ws -> spaced s ws.
Proof.
  intros C H. inversion H as [g G E|g w G N W E|g w d t ws' G N W D S E]; subst.
  - constructor. intros x X. apply G. right. exact X.
  - destruct g as [|x g]; simpl in E; [subst w; rewrite (W c) in C; [discriminate|left; reflexivity]|].
    injection E as -> <-. constructor; [intros y Y; apply G; right; exact Y|exact N|exact W].
  - destruct g as [|x g]; simpl in E.
    + destruct w as [|x w]; [contradiction|]. injection E as -> _. rewrite (W c) in C; [discriminate|left; reflexivity].
    + injection E as -> <-. constructor; [intros y Y; apply G; right; exact Y|exact N|exact W|exact D|exact S].
Qed.
Lemma spaced_suffix a : forall s ws, blank a -> spaced (a ++ s) ws -> spaced s ws.
Proof.
  induction a as [|c a IH]; intros s ws B H; [exact H|]. apply IH; [intros x X; apply B; right; exact X|].
  apply (spaced_tail c); [apply B; left; reflexivity|exact H].
Qed.
Lemma spaced_init t ws : spaced t ws -> forall s c, t = s ++ [c] -> is_space c = true -> spaced s ws.
Proof.
  induction 1 as [g G|g w G N W|g w d t ws G N W D S IH]; intros s c E C.
  - subst g. constructor. intros x X. apply G. apply in_or_app. left. exact X.
  - exfalso. destruct (exists_last N) as [q [x Q]]. subst w. rewrite app_assoc in E. apply app_inj_tail in E as [_ <-].
    rewrite (W x) in C; [discriminate|]. apply in_or_app. right. left. reflexivity.
  - destruct t as [|y t].
    + replace (g ++ w ++ [d]) with ((g ++ w) ++ [d]) in E by (rewrite app_assoc; reflexivity).
      apply app_inj_tail in E as [<- <-]. inversion S as [g' G' E'|g' w' G' N' W' E'|g' w' d' t' ws' G' N' W' D' S' E']; subst.
      * constructor; assumption.
      * exfalso. destruct g'; [|discriminate]. destruct w'; [congruence|discriminate].
      * exfalso. destruct g'; [|discriminate]. destruct w'; [congruence|discriminate].
    + destruct (exists_last (l := y :: t) ltac:(discriminate)) as [q [x Q]]. rewrite Q in *.
      replace (g ++ w ++ d :: q ++ [x]) with ((g ++ w ++ d :: q) ++ [x]) in E by (rewrite <- !app_assoc; reflexivity).
      apply app_inj_tail in E as [<- <-]. constructor; try assumption. apply (IH q x eq_refl C).
Qed.
Lemma spaced_prefix b : forall s ws, blank b -> spaced (s ++ b) ws -> spaced s ws.
Proof.
  induction b as [|c b IH] using rev_ind; intros s ws B H; [rewrite app_nil_r in H; exact H|].
  apply (IH s ws); [intros x X; apply B; apply in_or_app; left; exact X|].
  rewrite app_assoc in H. apply (spaced_init _ _ H (s ++ b) c eq_refl). apply B. apply in_or_app. right. left. reflexivity.
Qed.
Lemma spaced_exist s : exists ws, spaced s ws.
Proof.
  induction s as [|c s [ws IH]]; [exists []; constructor; intros c []|].
  assert (E0 : blank []) by (intros x []).
  destruct (is_space c) eqn:C.
  - exists ws. destruct IH as [g G|g w G N W|g w d s ws G N W D S].
    + constructor. intros x [<-|X]; [exact C|apply G, X].
    + apply (last_word (c :: g) w); [intros x [<-|X]; [exact C|apply G, X]|exact N|exact W].
    + apply (next_word (c :: g) w d s ws); try assumption. intros x [<-|X]; [exact C|apply G, X].
  - assert (C1 : forall x, In x [c] -> is_space x = false) by (intros x [<-|[]]; exact C).
    destruct IH as [g G|g w G N W|g w d s ws G N W D S].
    + destruct g as [|d g].
      * exists [[c]]. apply (last_word [] [c]); [exact E0|discriminate|exact C1].
      * exists [[c]]. apply (next_word [] [c] d g []); [exact E0|discriminate|exact C1|apply G; left; reflexivity|].
        constructor. intros x X. apply G. right. exact X.
    + destruct g as [|d g].
      * exists [c :: w]. apply (last_word [] (c :: w)); [exact E0|discriminate|]. intros x [<-|X]; [exact C|apply W, X].
      * exists [[c]; w]. apply (next_word [] [c] d (g ++ w) [w]); [exact E0|discriminate|exact C1|apply G; left; reflexivity|].
        constructor; [intros x X; apply G; right; exact X|exact N|exact W].
    + destruct g as [|e g].
      * exists ((c :: w) :: ws). apply (next_word [] (c :: w) d s ws); [exact E0|discriminate| |exact D|exact S].
        intros x [<-|X]; [exact C|apply W, X].
      * exists ([c] :: w :: ws). apply (next_word [] [c] e (g ++ w ++ d :: s) (w :: ws));
          [exact E0|discriminate|exact C1|apply G; left; reflexivity|].
        constructor; try assumption. intros x X. apply G. right. exact X.
Qed.

Lemma space_not_hash c : is_space c = true -> Ascii.eqb c "#" = false.
Proof. intros S. destruct (Ascii.eqb c "#") eqn:E; [apply Ascii.eqb_eq in E; subst c; discriminate S|reflexivity]. Qed.
Lemma before_blank a s : blank a -> partition_before "#" (a ++ s) = a ++ partition_before "#" s.
Proof.
  induction a as [|c a IH]; intros B; [reflexivity|]. simpl. rewrite (space_not_hash c) by (apply B; left; reflexivity).
  f_equal. apply IH. intros x X. apply B. right. exact X.
Qed.
Lemma before_end s b : blank b -> partition_before "#" (s ++ b) = partition_before "#" s \/
  partition_before "#" (s ++ b) = partition_before "#" s ++ b.
Proof.
  intros B. induction s as [|c s IH]; simpl.
  - right. rewrite <- (app_nil_r b) at 1. rewrite before_blank by exact B. rewrite app_nil_r. reflexivity.
  - destruct (Ascii.eqb c "#"); [left; reflexivity|]. destruct IH as [-> | ->]; [left|right]; reflexivity.
Qed.
Lemma cleaned_words line ws : spaced (partition_before "#" line) ws ->
  strip (partition_before "#" (collapse false (strip line))) = joined ws.
Proof.
  intros S. rewrite collapse_before. apply strip_collapse.
  destruct (strip_trimmed line) as [a [b [E [A [B _]]]]]. rewrite E in S. rewrite before_blank in S by exact A.
  apply spaced_suffix in S; [|exact A]. destruct (before_end (strip line) b B) as [F | F]; rewrite F in S; [exact S|].
  apply spaced_prefix in S; assumption.
Qed.

(** * Lines left out *)

Lemma occurs_tail p c s : (forall x r, p = x :: r -> is_space x = false) -> p <> [] -> is_space c = true -> occurs p (c :: s) -> occurs p s.
Proof.
  intros F N C [[|x a] [b E]].
  - exfalso. destruct p as [|x p]; [contradiction|]. injection E as <- _. rewrite (F c p eq_refl) in C. discriminate.
  - injection E as _ ->. exists a, b. reflexivity.
Qed.
Lemma occurs_init p c s : (forall r x, p = r ++ [x] -> is_space x = false) -> p <> [] -> is_space c = true -> occurs p (s ++ [c]) -> occurs p s.
Proof.
  intros F N C [a [b E]]. destruct b as [|y b] using rev_ind.
  - exfalso. rewrite app_nil_r in E. destruct (exists_last N) as [q [x Q]]. rewrite Q, app_assoc in E. apply app_inj_tail in E as [_ <-].
    rewrite (F q c Q) in C. discriminate.
  - rewrite !app_assoc in E. apply app_inj_tail in E as [-> _]. exists a, b. rewrite <- app_assoc. reflexivity.
Qed.
Lemma occurs_strip p line : (forall x r, p = x :: r -> is_space x = false) -> (forall r x, p = r ++ [x] -> is_space x = false) -> p <> [] ->
  occurs p (strip line) <-> occurs p line.
Proof.
  intros F L N. destruct (strip_trimmed line) as [a [b [E [A [B _]]]]]. split.
  - intros [u [v H]]. rewrite E, H. exists (a ++ u), (v ++ b). rewrite <- !app_assoc. reflexivity.
  - rewrite E at 1. clear E. revert A. induction a as [|c a IH]; intros A H.
    + simpl in H. revert B H. induction b as [|c b IH] using rev_ind; intros B H; [rewrite app_nil_r in H; exact H|].
      apply IH; [intros x X; apply B; apply in_or_app; left; exact X|]. rewrite app_assoc in H.
      apply (occurs_init p c); [exact L|exact N|apply B; apply in_or_app; right; left; reflexivity|exact H].
    + apply IH; [intros x X; apply A; right; exact X|]. simpl in H. apply (occurs_tail p c); [exact F|exact N|apply A; left; reflexivity|exact H].
Qed.
Lemma lstrip_app u v : lstrip u <> [] -> lstrip (u ++ v) = lstrip u ++ v.
Proof. induction u as [|c u IH]; simpl; [contradiction|]. destruct (is_space c); [exact IH|reflexivity]. Qed.
Lemma lstrip_none u v : lstrip u = [] -> lstrip (u ++ v) = lstrip v.
Proof. induction u as [|c u IH]; simpl; [reflexivity|]. destruct (is_space c); [exact IH|discriminate]. Qed.
Lemma starts_strip p line : (forall x r, p = x :: r -> is_space x = false) -> lstrip (rev p) = rev p -> p <> [] ->
  starts_with p (strip line) = true <-> exists g r, blank g /\ line = g ++ p ++ r.
Proof.
  intros F L N. unfold starts_with. split.
  - destruct (after_prefix p (strip line)) as [r|] eqn:E; [|discriminate]. intros _. apply after_prefix_spec in E.
    destruct (strip_trimmed line) as [a [b [H [A _]]]]. exists a, (r ++ b). split; [exact A|].
    rewrite H, E, <- app_assoc. reflexivity.
  - intros [g [r [G ->]]]. unfold strip. rewrite lstrip_blank by exact G.
    assert (P : lstrip (p ++ r) = p ++ r) by (destruct p as [|x p]; [contradiction|]; simpl; rewrite (F x p eq_refl); reflexivity).
    rewrite P, rev_app_distr. destruct (lstrip (rev r)) as [|y q] eqn:Q.
    + rewrite lstrip_none by exact Q. rewrite L, rev_involutive.
      assert (X : after_prefix p p = Some []) by (apply after_prefix_spec; rewrite app_nil_r; reflexivity). rewrite X. reflexivity.
    + rewrite lstrip_app by (rewrite Q; discriminate). rewrite Q, rev_app_distr, rev_involutive.
      assert (X : after_prefix p (p ++ rev (y :: q)) = Some (rev (y :: q))) by (apply after_prefix_spec; reflexivity).
      rewrite X. reflexivity.
Qed.

Lemma first_of (p : string) : forallb (fun c => negb (is_space c)) (txt p) = true ->
  (forall x r, txt p = x :: r -> is_space x = false) /\ (forall r x, txt p = r ++ [x] -> is_space x = false).
Proof.
  intros H. rewrite forallb_forall in H. split; intros x r E.
  - specialize (H x). rewrite E in H. specialize (H (or_introl eq_refl)). destruct (is_space x); [discriminate|reflexivity].
  - specialize (H r). rewrite E in H. rewrite in_app_iff in H. specialize (H (or_intror (or_introl eq_refl))). destruct (is_space r); [discriminate|reflexivity].
Qed.
Lemma left_out_spec line : left_out line <->
  starts_with (txt "Disassembly of section") (strip line) || filtered (strip line) = true.
Proof.
  unfold left_out, filtered. rewrite !orb_true_iff, !contains_occurs.
  rewrite !occurs_strip; try (apply first_of; reflexivity); try discriminate.
  rewrite starts_strip; [tauto| |reflexivity|discriminate]. intros x r E. injection E as <- _. reflexivity.
Qed.
Lemma instruction_shape line ws ts us : spaced (partition_before "#" line) ws -> tokens (joined ws) ts -> hexed ts us ->
  instruction line = if starts_with (txt "Disassembly of section") (strip line) || filtered (strip line) then None
    else match ws with [] => None | _ => Some (shown us) end.
Proof.
  intros W T U. pose proof (cleaned_words line ws W) as C. pose proof (convert_hexed ts us U _ T) as V. unfold instruction.
  assert (J : ws <> [] -> joined ws <> []).
  { intros X H. destruct ws as [|w ws]; [exact (X eq_refl)|].
    destruct (spaced_words _ _ W w (or_introl eq_refl)) as [N _]. destruct w; [contradiction|]. destruct ws; discriminate. }
  destruct (strip line) as [|x t].
  - change (strip (partition_before "#" (collapse false []))) with (@nil ascii) in C. destruct ws as [|w ws].
    + reflexivity.
    + exfalso. apply J; [discriminate|]. symmetry. exact C.
  - destruct (starts_with (txt "Disassembly of section") (x :: t)); [reflexivity|]. destruct (filtered (x :: t)); [reflexivity|].
    cbn [orb]. rewrite C. destruct ws as [|w ws]; [reflexivity|]. destruct (joined (w :: ws)) as [|y q] eqn:Q.
    + exfalso. apply J; [discriminate|reflexivity].
    + rewrite V. reflexivity.
Qed.
Lemma instruction_states line i : instruction line = Some i <-> states line i.
Proof.
  unfold states. rewrite left_out_spec. split.
  - destruct (spaced_exist (partition_before "#" line)) as [ws W].
    destruct (tokens_exist (joined ws)) as [ts T]. destruct (hexed_exist ts) as [us U].
    rewrite (instruction_shape line ws ts us W T U). destruct (_ || _); [discriminate|]. intros H. split; [discriminate|].
    exists (partition_before "#" line), ws, ts, us. split; [apply uncommented_before; reflexivity|]. split; [exact W|].
    destruct ws as [|w ws]; [discriminate|]. injection H as <-. split; [discriminate|]. auto.
  - intros [O [s [ws [ts [us [S [W [N [T [U ->]]]]]]]]]]. apply uncommented_before in S. subst s.
    rewrite (instruction_shape line ws ts us W T U). destruct (_ || _); [exfalso; apply O; reflexivity|].
    destruct ws; [contradiction|reflexivity].
Qed.

(** * The table *)

Definition kept (ls : list text) : list text := flat_map (fun l => match instruction l with Some i => [i] | None => [] end) ls.
Lemma stated_kept ls is : stated ls is <-> is = kept ls.
Proof.
  split.
  - induction 1 as [|l ls i is H S IH|l ls is H S IH]; [reflexivity| |]; unfold kept in *; simpl.
    + apply instruction_states in H. rewrite H. simpl. f_equal. exact IH.
    + destruct (instruction l) as [i|] eqn:E; [apply instruction_states in E; destruct (H i E)|exact IH].
  - intros ->. induction ls as [|l ls IH]; [constructor|]. unfold kept in *. simpl. destruct (instruction l) as [i|] eqn:E.
    + apply stated_line; [apply instruction_states, E|exact IH].
    + apply stated_other; [|exact IH]. intros i H. apply instruction_states in H. congruence.
Qed.
Lemma kept_snoc ls l : kept (ls ++ [l]) = kept ls ++ match instruction l with Some i => [i] | None => [] end.
Proof. unfold kept. rewrite flat_map_app. simpl. rewrite app_nil_r. reflexivity. Qed.

Definition plain_line (l : text) : Prop := function_name l = None.
Lemma plain_heading l : plain_line l <-> forall n, ~ heading l n.
Proof.
  unfold plain_line. split.
  - intros E n H. apply function_name_heading in H. congruence.
  - intros H. destruct (function_name l) as [n|] eqn:E; [|reflexivity]. apply function_name_heading in E. destruct (H n E).
Qed.

Inductive parsed : list text -> disassembly -> Prop :=
| parsed_none pre : (forall x, In x pre -> plain_line x) -> parsed pre []
| parsed_block ls d h n body : parsed ls d -> function_name h = Some n -> (forall x, In x body -> plain_line x) ->
    parsed (ls ++ h :: body) ((n, kept body) :: d).
Lemma parse_lines ls : parsed ls (fold_left add_line ls []).
Proof.
  induction ls as [|x ls IH] using rev_ind; [constructor; intros x []|]. rewrite fold_left_app. revert IH.
  generalize (fold_left add_line ls []). intros d IH. cbn [fold_left]. unfold add_line.
  destruct (function_name x) as [n|] eqn:F.
  - change (@nil text) with (kept []). apply parsed_block; [exact IH|exact F|intros y []].
  - destruct IH as [pre P|ls d h n body IH H B].
    + constructor. intros y Y. apply in_app_or in Y as [Y|[<-|[]]]; [apply P, Y|exact F].
    + rewrite <- app_assoc. cbn [app].
      assert (K : parsed (ls ++ h :: body ++ [x]) ((n, kept (body ++ [x])) :: d)).
      { apply parsed_block; [exact IH|exact H|]. intros y Y. apply in_app_or in Y as [Y|[<-|[]]]; [apply B, Y|exact F]. }
      rewrite kept_snoc in K. destruct (instruction x); [exact K|rewrite app_nil_r in K; exact K].
Qed.

Lemma lists_nothing pre g l : (forall x, In x pre -> plain_line x) -> ~ lists pre g l.
Proof.
  intros P [b [h [body [a [-> [H _]]]]]]. assert (X : plain_line h) by (apply P, in_or_app; right; left; reflexivity).
  rewrite plain_heading in X. exact (X g H).
Qed.
Lemma lists_last ls h body g l : heading h g -> (forall x, In x body -> plain_line x) ->
  lists (ls ++ h :: body) g l <-> l = kept body.
Proof.
  intros H B. split.
  - intros [bf [h' [body' [af [E [H' [B' [A1 [A2 S]]]]]]]]]. apply stated_kept in S. subst l.
    destruct (app_app _ _ _ _ _ E) as [[[|x e] [-> E']] | [[|x e] [-> E']]]; simpl in E'.
    + injection E' as <- E'. destruct af as [|y af]; [rewrite app_nil_r in E'; subst; reflexivity|].
      exfalso. destruct (A1 y af eq_refl) as [n Y]. assert (X : plain_line y) by (apply B; rewrite <- E'; apply in_or_app; right; left; reflexivity).
      rewrite plain_heading in X. exact (X n Y).
    + injection E' as <- E'. exfalso. assert (X : In h (body' ++ af)) by (rewrite E'; apply in_or_app; right; left; reflexivity).
      apply in_app_or in X as [X|X]; [exact (B' h g X H)|exact (A2 h X H)].
    + injection E' as <- E'. destruct af as [|y af]; [rewrite app_nil_r in E'; subst; reflexivity|].
      exfalso. destruct (A1 y af eq_refl) as [n Y]. assert (X : plain_line y) by (apply B; rewrite E'; apply in_or_app; right; left; reflexivity).
      rewrite plain_heading in X. exact (X n Y).
    + injection E' as <- E'. exfalso. assert (X : plain_line h') by (apply B; rewrite E'; apply in_or_app; right; left; reflexivity).
      rewrite plain_heading in X. exact (X g H').
  - intros ->. exists ls, h, body, []. rewrite app_nil_r. split; [reflexivity|]. split; [exact H|].
    split; [intros x n X; apply plain_heading, B, X|]. split; [discriminate|]. split; [intros x []|apply stated_kept; reflexivity].
Qed.
Lemma lists_earlier ls h body n g l : heading h n -> n <> g -> (forall x, In x body -> plain_line x) ->
  lists (ls ++ h :: body) g l <-> lists ls g l.
Proof.
  intros H N B. split.
  - intros [bf [h' [body' [af [E [H' [B' [A1 [A2 S]]]]]]]]].
    destruct (app_app _ _ _ _ _ E) as [[[|x e] [-> E']] | [[|x e] [-> E']]]; simpl in E'; injection E' as <- E'.
    + exfalso. apply N. exact (heading_unique _ _ _ H H').
    + destruct (app_app _ _ _ _ _ E') as [[[|x k] [-> E2]] | [k [-> E2]]].
      * exists bf, h', (e ++ []), []. split; [rewrite !app_nil_r; reflexivity|]. split; [exact H'|]. split; [exact B'|].
        split; [discriminate|]. split; [intros x []|exact S].
      * exfalso. simpl in E2. injection E2 as <- _. apply (B' h n); [apply in_or_app; right; left; reflexivity|exact H].
      * exists bf, h', body', k. split; [reflexivity|]. split; [exact H'|]. split; [exact B'|]. subst af.
        split; [intros x r ->; apply (A1 x (r ++ h :: body)); reflexivity|].
        split; [intros x X; apply A2; apply in_or_app; left; exact X|exact S].
    + exfalso. apply N. exact (heading_unique _ _ _ H H').
    + exfalso. assert (X : plain_line h') by (apply B; rewrite E'; apply in_or_app; right; left; reflexivity).
      rewrite plain_heading in X. exact (X g H').
  - intros [bf [h' [body' [af [-> [H' [B' [A1 [A2 S]]]]]]]]]. exists bf, h', body', (af ++ h :: body).
    split; [rewrite <- !app_assoc; simpl; rewrite <- !app_assoc; reflexivity|]. split; [exact H'|]. split; [exact B'|].
    split; [|split; [|exact S]].
    + intros x r E. destruct af as [|y af]; simpl in E; injection E as <- _; [exists n; exact H|exact (A1 y af eq_refl)].
    + intros x X Y. apply in_app_or in X as [X|[<-|X]]; [exact (A2 x X Y)|apply N; exact (heading_unique _ _ _ H Y)|].
      specialize (B x X). rewrite plain_heading in B. exact (B g Y).
Qed.
Lemma parsed_lists ls d : parsed ls d -> forall g l, listing_of g d = Some l <-> lists ls g l.
Proof.
  induction 1 as [pre P|ls d h n body IHp IH H B]; intros g l.
  - split; [discriminate|]. intros L. destruct (lists_nothing pre g l P L).
  - apply function_name_heading in H. simpl. destruct (same_text n g) eqn:E.
    + apply same_text_true in E. subst n. rewrite (lists_last ls h body g l H B). split; congruence.
    + rewrite (lists_earlier ls h body n g l H); [apply IH| |exact B]. intros X. apply same_text_true in X. congruence.
Qed.
Lemma parse_disassembly_lists raw lines : printed raw lines -> forall g l,
  listing_of g (parse_disassembly raw) = Some l <-> lists lines g l.
Proof.
  intros P. rewrite <- (printed_unique _ _ (splitlines_printed raw) _ P). apply parsed_lists. apply parse_lines.
Qed.

(** * Numbers that are alone *)

Lemma lone_tail t ts : lone (t :: ts) -> lone ts.
Proof. intros L a w c x b E. apply (L (t :: a) w c x b). rewrite E. reflexivity. Qed.
Lemma hexed_lone ts us : hexed ts us -> lone ts -> all_hexed ts us.
Proof.
  induction 1 as [|c ts us H IH|w ts us D H IH|w h ts us D X A H IH|w h c x ts us D X H IH]; intros L.
  - constructor.
  - apply all_other; [discriminate|]. apply IH, (lone_tail _ _ L).
  - apply all_other; [intros v V; injection V as <-; exact D|]. apply IH, (lone_tail _ _ L).
  - apply all_number; [exact D|exact X|]. apply IH, (lone_tail _ _ L).
  - apply all_number; [exact D|exact X|]. apply all_other; [discriminate|].
    apply all_other; [intros v V; injection V as <-; exact (L [] w c x ts eq_refl D)|].
    apply IH. apply lone_tail, lone_tail, lone_tail in L. exact L.
Qed.
Lemma in_hex_value n h : in_hex n h -> hex h = Some (Z.of_N n).
Proof.
  intros [d [-> [N [V _]]]]. unfold hex.
  assert (E : after_prefix (txt "0x") (txt "0x" ++ d) = Some d) by (apply after_prefix_spec; reflexivity).
  rewrite E. destruct d as [|c d]; [contradiction|]. rewrite V. reflexivity.
Qed.

(** Some line with the heading g is followed by the line c. *)
Fixpoint followed (g c : text) (ls : list text) : bool :=
  match ls with
  | h :: (x :: _) as r =>
      (match function_name h with Some n => same_text n g | None => false end && same_text x c) || followed g c r
  | _ => false
  end.
Lemma followed_true g c ls : followed g c ls = true -> exists before h rest, ls = before ++ h :: c :: rest /\ heading h g.
Proof.
  induction ls as [|h ls IH]; [discriminate|]. destruct ls as [|x ls]; [discriminate|]. cbn [followed].
  rewrite orb_true_iff, andb_true_iff. intros [[H X] | H].
  - destruct (function_name h) as [n|] eqn:N; [|discriminate]. apply same_text_true in H, X. subst.
    exists [], h, ls. split; [reflexivity|]. apply function_name_heading. exact N.
  - destruct (IH H) as [b [k [r [-> K]]]]. exists (h :: b), k, r. split; [reflexivity|exact K].
Qed.
Lemma followed_names {A} c ls (l : list (text * A)) : forallb (fun p => followed (fst p) c ls) l = true ->
  forall g f, In (g, f) l -> exists before h rest, ls = before ++ h :: c :: rest /\ heading h g.
Proof. intros H g f I. rewrite forallb_forall in H. apply followed_true. exact (H (g, f) I). Qed.
