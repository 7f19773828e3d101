(** Proofs about the script that checks the examples. *)
From Coq Require Import PeanoNat ZArith NArith Bool List Ascii String Lia ZifyBool ZifyNat ZifyN.
From Verif Require Import PyText CodegenFacts Examples ExamplesSpec.
Import ListNotations.
Open Scope N_scope.
Open Scope list_scope.

Lemma newline_code c : (code c =? 10) = true <-> c = newline.
Proof.
  unfold code, newline. rewrite N.eqb_eq. split; [|intros ->; reflexivity].
  intros H. rewrite <- (ascii_N_embedding c). f_equal. exact H.
Qed.

Lemma readlines_lines s : file_lines s (readlines s).
Proof.
  induction s as [|c s IH]; [constructor|]. cbn [readlines]. destruct (code c =? 10) eqn:E.
  - apply newline_code in E as ->. apply (next_line [] s); [intros []|exact IH].
  - assert (N : c <> newline) by (intros ->; vm_compute in E; discriminate).
    inversion IH as [E1 E2|l H1 H2 E1 E2|l t ls H1 H2 E1 E2].
    + apply last_line; [discriminate|]. intros [K|[]]. exact (N K).
    + apply last_line; [discriminate|]. intros [K|K]; [exact (N K)|exact (H2 K)].
    + change (c :: l ++ newline :: t) with ((c :: l) ++ newline :: t). change (c :: l ++ [newline]) with ((c :: l) ++ [newline]).
      apply next_line; [|exact H2]. intros [K|K]; [exact (N K)|exact (H1 K)].
Qed.

Lemma file_lines_unique s ls : file_lines s ls -> forall ms, file_lines s ms -> ls = ms.
Proof.
  assert (Hcut : forall l m a b, ~ In newline l -> ~ In newline m -> l ++ newline :: a = m ++ newline :: b -> l = m /\ a = b).
  { induction l as [|x l IH]; intros [|y m] a b Hl Hm H; cbn in H; [injection H as H|injection H as E H..].
    - split; [reflexivity|exact H].
    - destruct Hm. left. symmetry. exact E.
    - destruct Hl. left. exact E.
    - destruct (IH m a b) as [-> ->]; [intros K; apply Hl; right; exact K|intros K; apply Hm; right; exact K|exact H|]. subst y. split; reflexivity. }
  assert (Hno : forall l a, ~ In newline (l ++ newline :: a) -> False).
  { intros l a H. apply H, in_or_app. right. left. reflexivity. }
  induction 1 as [|l H1 H2|l s ls H1 H2 IH]; intros ms K; inversion K as [E1 E2|m K1 K2 E1 E2|m t ns K1 K2 E1 E2]; subst; try reflexivity; try congruence.
  - destruct m; discriminate.
  - exfalso. exact (Hno _ _ H2).
  - destruct l; discriminate.
  - exfalso. exact (Hno _ _ K2).
  - destruct (Hcut m l t s K1 H1 E1) as [-> ->]. f_equal. apply IH, K2.
Qed.

Lemma ends_line_spec c : ends_line c = true <-> line_end c.
Proof.
  unfold ends_line, line_end. destruct c as [[] [] [] [] [] [] [] []]; cbv; split; intros H; try reflexivity; try discriminate; try tauto;
    repeat (destruct H as [H|H]; [discriminate|]); destruct H.
Qed.

Lemma splitlines_printed s : printed s (splitlines s).
Proof.
  induction s as [|c s IH]; [constructor|]. cbn [splitlines]. destruct (ends_line c) eqn:E.
  - apply (finished [] c s); [intros d []|apply ends_line_spec, E|exact IH].
  - assert (N : ~ line_end c) by (rewrite <- ends_line_spec, E; discriminate).
    inversion IH as [E1 E2|l H1 H2 E1 E2|l e t ls H1 H2 H3 E1 E2].
    + apply unfinished; [discriminate|]. intros x [<-|[]]. exact N.
    + apply unfinished; [discriminate|]. intros x [<-|K]; [exact N|exact (H2 x K)].
    + change (c :: l ++ e :: t) with ((c :: l) ++ e :: t). apply finished; [|exact H2|exact H3].
      intros x [<-|K]; [exact N|exact (H1 x K)].
Qed.

Lemma printed_unique s ls : printed s ls -> forall ms, printed s ms -> ls = ms.
Proof.
  assert (Hcut : forall l m c d a b, (forall x, In x l -> ~ line_end x) -> (forall x, In x m -> ~ line_end x) -> line_end c -> line_end d ->
    l ++ c :: a = m ++ d :: b -> l = m /\ a = b).
  { induction l as [|x l IH]; intros [|y m] c d a b Hl Hm Hc Hd H; cbn in H; injection H as E H.
    - split; [reflexivity|exact H].
    - subst c. destruct (Hm y (or_introl eq_refl) Hc).
    - subst d. destruct (Hl x (or_introl eq_refl) Hd).
    - destruct (IH m c d a b) as [-> ->]; try assumption; [intros z K; apply Hl; right; exact K|intros z K; apply Hm; right; exact K|].
      subst y. split; reflexivity. }
  assert (Hno : forall l c a, line_end c -> (forall x, In x (l ++ c :: a) -> ~ line_end x) -> False).
  { intros l c a H K. apply (K c); [apply in_or_app; right; left; reflexivity|exact H]. }
  induction 1 as [|l H1 H2|l c s ls H1 H2 H3 IH]; intros ms K; inversion K as [E1 E2|m K1 K2 E1 E2|m d t ns K1 K2 K3 E1 E2]; subst; try reflexivity; try congruence.
  - destruct m; discriminate.
  - exfalso. exact (Hno _ _ _ K2 H2).
  - destruct l; discriminate.
  - exfalso. exact (Hno _ _ _ H2 K2).
  - destruct (Hcut m l d c t s K1 H1 K2 H2 E1) as [-> ->]. f_equal. apply IH, K3.
Qed.

(** * strip *)

Lemma lstrip_spec s : exists a, s = a ++ lstrip s /\ blank a /\ forall c r, lstrip s = c :: r -> is_space c = false.
Proof.
  induction s as [|c s (a & E & B & F)]; [exists []; repeat split; [intros c []|discriminate]|]. cbn [lstrip]. destruct (is_space c) eqn:K.
  - exists (c :: a). split; [cbn; f_equal; exact E|]. split; [|exact F]. intros d [<-|H]; [exact K|exact (B d H)].
  - exists []. split; [reflexivity|]. split; [intros d []|]. intros d r [= <- _]. exact K.
Qed.

Lemma strip_trimmed s : trimmed s (strip s).
Proof.
  unfold strip. destruct (lstrip_spec s) as (a & E & B & F). set (t := lstrip s) in *.
  destruct (lstrip_spec (rev t)) as (b & E' & B' & F'). set (u := lstrip (rev t)) in *.
  assert (T : t = rev u ++ rev b) by (rewrite <- rev_app_distr, <- E', rev_involutive; reflexivity).
  exists a, (rev b). split; [rewrite E at 1; rewrite T; reflexivity|]. split; [exact B|].
  split; [intros c H; apply B', in_rev, H|]. split.
  - intros c r H. apply (F c (r ++ rev b)). rewrite T, H. reflexivity.
  - intros r c H. apply (F' c (rev r)). rewrite <- (rev_involutive u), H, rev_app_distr. reflexivity.
Qed.

Lemma lstrip_blank a x : blank a -> lstrip (a ++ x) = lstrip x.
Proof.
  induction a as [|c a IH]; intros B; [reflexivity|]. cbn. rewrite (B c (or_introl eq_refl)). apply IH. intros d H. apply B. right. exact H.
Qed.

Lemma blank_rev a : blank a -> blank (rev a).
Proof. intros B c H. apply B, in_rev, H. Qed.

Lemma trimmed_strip s t : trimmed s t <-> t = strip s.
Proof.
  split; [|intros ->; apply strip_trimmed]. intros (a & b & -> & Ba & Bb & F & L). unfold strip. rewrite (lstrip_blank a _ Ba).
  destruct t as [|c t].
  - cbn [app]. rewrite <- (app_nil_r b), (lstrip_blank b [] Bb). reflexivity.
  - cbn [app lstrip]. rewrite (F c t eq_refl). change (c :: t ++ b) with ((c :: t) ++ b). rewrite rev_app_distr, (lstrip_blank (rev b) _ (blank_rev b Bb)).
    destruct (rev (c :: t)) as [|d r] eqn:E; [apply (f_equal (@List.length ascii)) in E; rewrite rev_length in E; discriminate|].
    apply (f_equal (@rev ascii)) in E. rewrite rev_involutive in E. cbn [rev] in E.
    cbn [lstrip]. rewrite (L (rev r) d E), E. reflexivity.
Qed.

(** * What is written beside the lines *)

Lemma after_prefix_spec p s r : after_prefix p s = Some r <-> s = p ++ r.
Proof.
  revert s. induction p as [|x p IH]; intros s; cbn; [split; congruence|]. destruct s as [|y s]; [split; discriminate|].
  destruct (Ascii.eqb_spec x y) as [<-|N]; [rewrite IH; split; [intros ->; reflexivity|intros [= H]; exact H]|].
  split; [discriminate|]. intros [= H _]. congruence.
Qed.

Lemma partition_found a b : (forall a' b', a ++ mark ++ b = a' ++ mark ++ b' -> (List.length a <= List.length a')%nat) ->
  partition_after mark (a ++ mark ++ b) = b.
Proof.
  induction a as [|c a IH]; intros M.
  - cbn [app]. assert (K : after_prefix mark (mark ++ b) = Some b) by (apply after_prefix_spec; reflexivity).
    cbn [partition_after mark txt list_ascii_of_string app] in *. unfold mark in K. cbn [txt list_ascii_of_string app] in K.
    unfold partition_after, mark; cbn [txt list_ascii_of_string app]. fold partition_after. rewrite K. reflexivity.
  - change ((c :: a) ++ mark ++ b) with (c :: (a ++ mark ++ b)) in *. cbn [partition_after].
    destruct (after_prefix mark (c :: a ++ mark ++ b)) as [r|] eqn:E.
    + apply after_prefix_spec in E. specialize (M [] r E). cbn in M. lia.
    + apply IH. intros a' b' H. specialize (M (c :: a') b'). cbn [List.length app] in M. rewrite H in M. specialize (M eq_refl). lia.
Qed.

Lemma partition_spec l :
  (without_mark l /\ partition_after mark l = []) \/
  exists a b, l = a ++ mark ++ b /\ (forall a' b', l = a' ++ mark ++ b' -> (List.length a <= List.length a')%nat) /\ partition_after mark l = b.
Proof.
  assert (D : without_mark l \/ exists a b, l = a ++ mark ++ b /\ forall a' b', l = a' ++ mark ++ b' -> (List.length a <= List.length a')%nat).
  { induction l as [|c l IH].
    - left. intros [|x a] b H; discriminate.
    - destruct (after_prefix mark (c :: l)) as [r|] eqn:E.
      + apply after_prefix_spec in E. right. exists [], r. split; [exact E|]. intros a' b' _. cbn. lia.
      + assert (N : forall b, c :: l <> mark ++ b) by (intros b H; apply after_prefix_spec in H; congruence).
        destruct IH as [W|(a & b & -> & M)].
        * left. intros [|x a] b H; [exact (N b H)|]. injection H as _ H. exact (W a b H).
        * right. exists (c :: a), b. split; [reflexivity|]. intros [|x a'] b' H; [destruct (N b' H)|]. injection H as _ H. cbn. specialize (M a' b' H). lia. }
  destruct D as [W|(a & b & -> & M)].
  - left. split; [exact W|]. clear -W. induction l as [|c l IH]; [reflexivity|]. cbn [partition_after].
    destruct (after_prefix mark (c :: l)) as [r|] eqn:E; [apply after_prefix_spec in E; destruct (W [] r E)|].
    apply IH. intros a b H. apply (W (c :: a) b). rewrite H. reflexivity.
  - right. exists a, b. split; [reflexivity|]. split; [exact M|]. apply partition_found, M.
Qed.

Lemma beside_partition l e : beside l e <-> partition_after mark l <> [] /\ e = strip (partition_after mark l).
Proof.
  split.
  - intros (a & b & -> & M & N & T). rewrite (partition_found a b M). split; [exact N|]. apply trimmed_strip, T.
  - intros (N & ->). destruct (partition_spec l) as [(_ & E)|(a & b & E1 & M & E2)]; [congruence|].
    exists a, b. rewrite E2 in N |- *. split; [exact E1|]. split; [exact M|]. split; [exact N|]. apply strip_trimmed.
Qed.
Lemma not_beside_partition l : not_beside l <-> partition_after mark l = [].
Proof.
  split.
  - intros [W|(a & -> & M)].
    + destruct (partition_spec l) as [(_ & E)|(a & b & E1 & _)]; [exact E|destruct (W a b E1)].
    + rewrite <- (app_nil_r mark) in M |- *. apply partition_found, M.
  - intros E. destruct (partition_spec l) as [(W & _)|(a & b & E1 & M & E2)]; [left; exact W|].
    right. exists a. rewrite E in E2. subst b. rewrite app_nil_r in E1. split; [exact E1|exact M].
Qed.

Lemma annotations_expected ls es : forall i, annotations ls es <-> es = map snd (expected_from i ls).
Proof.
  intros i. split.
  - intros H. revert i. induction H as [|l e ls es B H IH|l ls es B H IH]; intros i; [reflexivity| |]; cbn [expected_from]; change prefix with mark.
    + apply beside_partition in B as [N ->]. destruct (partition_after mark l) as [|c r] eqn:E; [congruence|]. cbn [map snd]. f_equal. apply IH.
    + apply not_beside_partition in B as ->. apply IH.
  - revert i es. induction ls as [|l ls IH]; intros i es; cbn [expected_from map]; [intros ->; constructor|]. change prefix with mark.
    destruct (partition_after mark l) as [|c r] eqn:E; intros ->.
    + apply unannotated; [apply not_beside_partition, E|]. apply (IH (i + 1)). reflexivity.
    + cbn [map snd]. apply annotated; [apply beside_partition; rewrite E; split; [discriminate|reflexivity]|]. apply (IH (i + 1)). reflexivity.
Qed.

(** * Numbers *)

Lemma is_digit_spec c : is_digit c = true <-> exists n, n < 10 /\ c = ascii_of_N (48 + n).
Proof.
  unfold is_digit, code. split.
  - intros H. exists (N_of_ascii c - 48). split; [lia|]. rewrite <- (ascii_N_embedding c) at 1. f_equal. lia.
  - intros (n & H & ->). rewrite N_ascii_embedding; lia.
Qed.
Lemma digit_value n : n < 10 -> digit (ascii_of_N (48 + n)) = n.
Proof. intros H. unfold digit, code. rewrite N_ascii_embedding; lia. Qed.
Lemma digit_not_underscore n : n < 10 -> Ascii.eqb (ascii_of_N (48 + n)) "_" = false.
Proof.
  intros H. destruct (Ascii.eqb_spec (ascii_of_N (48 + n)) "_") as [E|]; [|reflexivity].
  apply (f_equal N_of_ascii) in E. rewrite N_ascii_embedding in E by lia. cbv [N_of_ascii N_of_digits] in E. lia.
Qed.

Definition value_from (m : N) (ns : list N) : N := fold_left (fun m n => 10 * m + n) ns m.

Lemma digits_int s ns : digits s ns -> forall need m, int_digits need s m = Some (value_from m ns).
Proof.
  induction 1 as [c n L ->|c n s ns L -> H IH|c n s ns L -> H IH]; intros need m; cbn [int_digits];
    (replace (is_digit (ascii_of_N (48 + n))) with true by (symmetry; apply is_digit_spec; exists n; split; [exact L|reflexivity]));
    rewrite (digit_value n L).
  - reflexivity.
  - rewrite IH. reflexivity.
  - change (is_digit "_") with false. change (Ascii.eqb "_" "_" && negb false) with true. cbv iota. rewrite IH. reflexivity.
Qed.

Lemma int_digits_inv s : forall m z, int_digits true s m = Some z -> exists ns, digits s ns /\ z = value_from m ns.
Proof.
  assert (H : forall s m z,
    (int_digits true s m = Some z -> exists ns, digits s ns /\ z = value_from m ns) /\
    (int_digits false s m = Some z -> (s = [] /\ z = m) \/ exists ns, z = value_from m ns /\
       (digits s ns \/ exists t, s = "_"%char :: t /\ digits t ns))).
  { clear. induction s as [|c s IH]; intros m z.
    - split; [discriminate|]. intros [= <-]. left. split; reflexivity.
    - cbn [int_digits]. destruct (is_digit c) eqn:E.
      + apply is_digit_spec in E as (n & L & ->). rewrite (digit_value n L).
        assert (G : int_digits false s (10 * m + n) = Some z -> exists ns, digits (ascii_of_N (48 + n) :: s) ns /\ z = value_from m ns).
        { intros K. apply IH in K as [(-> & ->)|(ns & -> & [D|(t & -> & D)])].
          - exists [n]. split; [apply one_digit; [exact L|reflexivity]|reflexivity].
          - exists (n :: ns). split; [apply more_digits; [exact L|reflexivity|exact D]|reflexivity].
          - exists (n :: ns). split; [apply underscore; [exact L|reflexivity|exact D]|reflexivity]. }
        split; [exact G|]. intros K. right. destruct (G K) as (ns & D & ->). exists ns. split; [reflexivity|left; exact D].
      + destruct (Ascii.eqb_spec c "_") as [->|N]; cbn [andb negb]; split; try discriminate.
        intros K. right. apply IH in K as (ns & D & ->). exists ns. split; [reflexivity|]. right. exists s. split; [reflexivity|exact D]. }
  intros m z. apply H.
Qed.

Lemma digits_first s ns : digits s ns -> exists n r, n < 10 /\ s = ascii_of_N (48 + n) :: r.
Proof. destruct 1 as [c n L ->|c n s ns L -> H|c n s ns L -> H]; eexists n, _; (split; [exact L|reflexivity]). Qed.
Lemma digit_not_sign n : n < 10 -> Ascii.eqb (ascii_of_N (48 + n)) "-" = false /\ Ascii.eqb (ascii_of_N (48 + n)) "+" = false.
Proof.
  intros H. split.
  - destruct (Ascii.eqb_spec (ascii_of_N (48 + n)) "-") as [E|]; [|reflexivity].
    apply (f_equal N_of_ascii) in E. rewrite N_ascii_embedding in E by lia. cbv [N_of_ascii N_of_digits] in E. lia.
  - destruct (Ascii.eqb_spec (ascii_of_N (48 + n)) "+") as [E|]; [|reflexivity].
    apply (f_equal N_of_ascii) in E. rewrite N_ascii_embedding in E by lia. cbv [N_of_ascii N_of_digits] in E. lia.
Qed.

Lemma try_int_spec s : strip s = s -> forall z, try_int s = Some z <-> exists ns, numeral s ns /\
  (z = Z.of_N (value_from 0 ns) /\ (forall t, s <> "-"%char :: t) \/ z = (- Z.of_N (value_from 0 ns))%Z /\ exists t, s = "-"%char :: t).
Proof.
  intros S z. unfold try_int. rewrite S. clear S. destruct s as [|c r].
  - split; [discriminate|]. intros (ns & [D|(t & D & [E|E])] & _); [inversion D|discriminate|discriminate].
  - destruct (Ascii.eqb_spec c "-") as [->|N].
    + split.
      * destruct (int_digits true r 0) as [n|] eqn:E; [|discriminate]. cbn. intros [= <-].
        apply int_digits_inv in E as (ns & D & ->). exists ns. split; [right; exists r; split; [exact D|left; reflexivity]|].
        right. split; [reflexivity|exists r; reflexivity].
      * intros (ns & [D|(t & D & [E|E])] & [(Z1 & Z2)|(Z1 & Z2)]).
        -- destruct (Z2 r eq_refl).
        -- apply digits_first in D as (n & q & L & E). apply (f_equal (hd "_"%char)) in E. cbn [hd] in E. apply digit_not_sign in L as [L _]. rewrite <- E in L. discriminate.
        -- destruct (Z2 r eq_refl).
        -- injection E as ->. rewrite (digits_int t ns D true 0), Z1. reflexivity.
        -- destruct (Z2 r eq_refl).
        -- discriminate.
    + assert (N' : forall t, c :: r <> "-"%char :: t) by (intros t [= -> _]; congruence).
      destruct (Ascii.eqb_spec c "+") as [->|M].
      * split.
        -- destruct (int_digits true r 0) as [n|] eqn:E; [|discriminate]. cbn. intros [= <-].
           apply int_digits_inv in E as (ns & D & ->). exists ns. split; [right; exists r; split; [exact D|right; reflexivity]|].
           left. split; [reflexivity|exact N'].
        -- intros (ns & K & [(Z1 & _)|(_ & t & Z2)]); [|destruct (N' t Z2)]. destruct K as [D|(t & D & [E|E])].
           ++ apply digits_first in D as (n & q & L & E). apply (f_equal (hd "_"%char)) in E. cbn [hd] in E. apply digit_not_sign in L as [_ L]. rewrite <- E in L. discriminate.
           ++ destruct (N' t E).
           ++ injection E as ->. rewrite (digits_int t ns D true 0), Z1. reflexivity.
      * split.
        -- destruct (int_digits true (c :: r) 0) as [n|] eqn:E; [|discriminate]. cbn [option_map]. intros [= <-].
           apply int_digits_inv in E as (ns & D & ->). exists ns. split; [left; exact D|]. left. split; [reflexivity|exact N'].
        -- intros (ns & K & [(Z1 & _)|(_ & t & Z2)]); [|destruct (N' t Z2)]. destruct K as [D|(t & D & [E|E])].
           ++ rewrite (digits_int _ ns D true 0), Z1. reflexivity.
           ++ destruct (N' t E).
           ++ congruence.
Qed.

Lemma value_zero ns : forall m, value_from m ns = 0 <-> m = 0 /\ forall n, In n ns -> n = 0.
Proof.
  induction ns as [|n ns IH]; intros m; cbn [value_from fold_left].
  - split; [intros ->; split; [reflexivity|intros n []]|intros [-> _]; reflexivity].
  - fold (value_from (10 * m + n) ns). rewrite IH. split.
    + intros [E H]. split; [lia|]. intros k [<-|K]; [lia|exact (H k K)].
    + intros [-> H]. rewrite (H n (or_introl eq_refl)). split; [reflexivity|]. intros k K. apply H. right. exact K.
Qed.

Lemma number_spec s : strip s = s -> number s <-> try_int s <> None.
Proof.
  intros S. split.
  - intros (ns & K). assert (D : (exists t, s = "-"%char :: t) \/ forall t, s <> "-"%char :: t).
    { destruct s as [|c r]; [right; discriminate|]. destruct (ascii_dec c "-") as [->|N]; [left; exists r; reflexivity|right; intros t [= H _]; exact (N H)]. }
    destruct D as [D|D].
    + rewrite (proj2 (try_int_spec s S (- Z.of_N (value_from 0 ns))%Z)); [discriminate|]. exists ns. split; [exact K|right; split; [reflexivity|exact D]].
    + rewrite (proj2 (try_int_spec s S (Z.of_N (value_from 0 ns)))); [discriminate|]. exists ns. split; [exact K|left; split; [reflexivity|exact D]].
  - intros H. destruct (try_int s) as [z|] eqn:E; [|congruence]. apply (try_int_spec s S) in E as (ns & K & _). exists ns. exact K.
Qed.
Lemma zero_spec s : strip s = s -> zero s <-> try_int s = Some 0%Z.
Proof.
  intros S. rewrite (try_int_spec s S). split.
  - intros (ns & K & H). exists ns. split; [exact K|]. rewrite (proj2 (value_zero ns 0)) by (split; [reflexivity|exact H]).
    destruct s as [|c r]; [left; split; [reflexivity|discriminate]|].
    destruct (ascii_dec c "-") as [->|N]; [right; split; [reflexivity|exists r; reflexivity]|left; split; [reflexivity|intros t [= E _]; exact (N E)]].
  - intros (ns & K & H). exists ns. split; [exact K|]. apply (proj1 (value_zero ns 0)). destruct H as [(H & _)|(H & _)]; lia.
Qed.

Lemma line_ok_spec e r : strip r = r -> line_ok e r = true <-> fits e r.
Proof.
  intros S. unfold line_ok, fits. rewrite (number_spec r S), (zero_spec r S).
  destruct (same_text e (txt "[number]")) eqn:E1.
  - apply same_text_true in E1. subst e. cbn [andb]. destruct (try_int r) as [z|] eqn:T.
    + split; [intros _; right; left; split; [reflexivity|discriminate]|reflexivity].
    + change (same_text (txt "[number]") (txt "[nullptr]")) with false. cbn [andb]. rewrite same_text_true.
      split; [left; assumption|]. intros [H|[(_ & H)|(H & _)]]; [exact H|congruence|discriminate].
  - assert (N1 : e <> txt "[number]") by (intros H; apply same_text_true in H; congruence). cbn [andb].
    destruct (same_text e (txt "[nullptr]")) eqn:E2.
    + apply same_text_true in E2. subst e. cbn [andb].
      destruct (try_int r) as [z|] eqn:T.
      * destruct (Z.eqb_spec z 0) as [->|N].
        { split; [intros _; right; right; split; [reflexivity|left; reflexivity]|reflexivity]. }
        cbn [orb]. destruct (same_text r (txt "(nil)")) eqn:E3.
        { apply same_text_true in E3. split; [intros _; right; right; split; [reflexivity|right; exact E3]|reflexivity]. }
        rewrite same_text_true. split; [left; assumption|]. intros [H|[(H & _)|(_ & [H|H])]]; [exact H|congruence|congruence|].
        apply same_text_true in H. congruence.
      * cbn [orb]. destruct (same_text r (txt "(nil)")) eqn:E3.
        { apply same_text_true in E3. split; [intros _; right; right; split; [reflexivity|right; exact E3]|reflexivity]. }
        rewrite same_text_true. split; [left; assumption|]. intros [H|[(H & _)|(_ & [H|H])]]; [exact H|congruence|congruence|].
        apply same_text_true in H. congruence.
    + assert (N2 : e <> txt "[nullptr]") by (intros H; apply same_text_true in H; congruence). cbn [andb].
      rewrite same_text_true. split; [left; assumption|]. intros [H|[(H & _)|(H & _)]]; [exact H|contradiction|contradiction].
Qed.

(** * The whole *)

Lemma strip_strip s : strip (strip s) = strip s.
Proof.
  symmetry. apply trimmed_strip. destruct (strip_trimmed s) as (a & b & _ & _ & _ & F & L). exists [], [].
  rewrite app_nil_r. split; [reflexivity|]. split; [intros c []|]. split; [intros c []|]. split; assumption.
Qed.

Lemma Forall2_trimmed out rs : Forall2 trimmed out rs <-> rs = map strip out.
Proof.
  split.
  - induction 1 as [|o r out rs T F IH]; [reflexivity|]. cbn. f_equal; [apply trimmed_strip, T|exact IH].
  - intros ->. induction out as [|o out IH]; [constructor|]. cbn. constructor; [apply strip_trimmed|exact IH].
Qed.

Lemma combine_fits (es : list (N * text)) rs : (forall r, In r rs -> strip r = r) ->
  (List.length es = List.length rs /\ forallb (fun p => line_ok (snd (fst p)) (snd p)) (combine es rs) = true) <-> Forall2 fits (map snd es) rs.
Proof.
  revert rs. induction es as [|e es IH]; intros [|r rs] S; cbn [map combine forallb List.length].
  - split; [constructor|]. intros _. split; reflexivity.
  - split; [intros [H _]; discriminate|]. intros H. inversion H.
  - split; [intros [H _]; discriminate|]. intros H. inversion H.
  - cbn [fst snd]. rewrite andb_true_iff, (line_ok_spec (snd e) r (S r (or_introl eq_refl))).
    specialize (IH rs (fun x H => S x (or_intror H))). split.
    + intros (L & F & R). constructor; [exact F|]. apply IH. split; [congruence|exact R].
    + intros H. inversion H as [|a b c d F R]; subst. apply IH in R as [L R]. split; [congruence|]. split; assumption.
Qed.

Lemma check_one_spec file r : check_one file r = Good <-> as_written file r.
Proof.
  unfold check_one, as_written. destruct (Z.eqb_spec (returncode r) 0) as [->|N]; cbn [negb]; [|split; [discriminate|intros [H _]; contradiction]].
  set (rs := map strip (splitlines (stdout r))). set (es := expected_lines file).
  assert (S : forall x, In x rs -> strip x = x).
  { intros x H. apply in_map_iff in H as (y & <- & _). apply strip_strip. }
  transitivity (List.length es = List.length rs /\ forallb (fun p => line_ok (snd (fst p)) (snd p)) (combine es rs) = true).
  - destruct (Nat.ltb_spec (List.length rs) (List.length es)); [split; [discriminate|lia]|].
    destruct (Nat.ltb_spec (List.length es) (List.length rs)); [split; [destruct es; discriminate|lia]|].
    destruct (forallb _ _); split; try discriminate; try reflexivity; [intros _; split; [lia|reflexivity]|intros [_ K]; discriminate].
  - rewrite (combine_fits es rs S). split.
    + intros F. split; [reflexivity|]. exists (readlines file), (map snd es), (splitlines (stdout r)), rs.
      split; [apply readlines_lines|]. split; [apply (annotations_expected _ _ 0); reflexivity|]. split; [apply splitlines_printed|].
      split; [apply Forall2_trimmed; reflexivity|exact F].
    + intros (_ & ls & es' & out & rs' & L & A & P & T & F).
      rewrite (file_lines_unique _ _ L _ (readlines_lines file)) in A. apply (annotations_expected _ _ 0) in A. subst es'.
      rewrite (printed_unique _ _ P _ (splitlines_printed (stdout r))) in T. apply Forall2_trimmed in T. subst rs'. exact F.
Qed.

Lemma check_all_true e l : check_all e l = true <-> e = false /\ forall f r, In (f, r) l -> check_one f r = Good.
Proof.
  revert e. induction l as [|(f, r) l IH]; intros e; cbn [check_all].
  - destruct e; cbn; split; try discriminate; [intros [H _]; discriminate|intros _; split; [reflexivity|intros f r []]|reflexivity].
  - destruct (check_one f r) eqn:E.
    + rewrite IH. split; intros [H K]; (split; [exact H|]); [|intros f' r' I; apply K; right; exact I].
      intros f' r' [[= <- <-]|I]; [exact E|exact (K f' r' I)].
    + rewrite IH. split; [intros [H _]; discriminate|]. intros [_ K]. rewrite (K f r (or_introl eq_refl)) in E. discriminate.
    + split; [discriminate|]. intros [_ K]. rewrite (K f r (or_introl eq_refl)) in E. discriminate.
Qed.

Lemma succeeds_spec files targets : succeeds files targets = true <->
  forall i f r, nth_error files i = Some f -> nth_error targets i = Some r -> as_written f r.
Proof.
  unfold succeeds. rewrite check_all_true. split.
  - intros [_ H] i f r Hf Hr. apply check_one_spec, H. revert files targets H Hf Hr. induction i as [|i IH]; intros [|f' files] [|r' targets] H Hf Hr; try discriminate.
    + left. cbn in Hf, Hr. congruence.
    + right. apply IH; [|exact Hf|exact Hr]. intros g s K. apply H. right. exact K.
  - intros H. split; [reflexivity|]. intros f r K. apply check_one_spec. revert targets H K.
    induction files as [|f' files IH]; intros [|r' targets] H K; try (destruct K; fail).
    destruct K as [E|K].
    + injection E as -> ->. apply (H 0%nat); reflexivity.
    + apply (IH targets); [|exact K]. intros i g s Hg Hs. apply (H (S i)); assumption.
Qed.

(** With a program for every file all files are checked. *)
Lemma succeeds_all files targets : List.length files = List.length targets ->
  succeeds files targets = true <-> Forall2 as_written files targets.
Proof.
  intros L. rewrite succeeds_spec. revert targets L. induction files as [|f files IH]; intros [|r targets] L; try discriminate.
  - split; [constructor|]. intros _ [|i] f r H; discriminate.
  - injection L as L. specialize (IH targets L). split.
    + intros H. constructor; [apply (H 0%nat); reflexivity|]. apply IH. intros i g s Hg Hs. apply (H (S i)); assumption.
    + intros H. inversion H as [|a b c d A F]; subst. intros [|i] g s Hg Hs; [cbn in Hg, Hs; congruence|]. apply (proj2 IH F i); assumption.
Qed.

Lemma combine_extra (A B : Type) (l : list A) (m : list B) : List.length l = List.length m ->
  forall xs ys, combine (l ++ xs) m = combine l m /\ combine l (m ++ ys) = combine l m.
Proof.
  revert m. induction l as [|a l IH]; intros [|b m] H xs ys; try discriminate; [split; [destruct xs|]; reflexivity|].
  injection H as H. destruct (IH m H xs ys) as [E1 E2]. cbn. rewrite E1, E2. split; reflexivity.
Qed.
Lemma succeeds_extra files targets : List.length files = List.length targets ->
  forall fs rs, succeeds (files ++ fs) targets = succeeds files targets /\ succeeds files (targets ++ rs) = succeeds files targets.
Proof. intros L fs rs. unfold succeeds. destruct (combine_extra _ _ files targets L fs rs) as [-> ->]. split; reflexivity. Qed.
