(** Facts about strings of the standard libraries (StringSpec). *)
From Coq Require Import ZArith NArith List Bool Lia ZifyBool ZifyNat ZifyN.
From Verif Require Import Outcome Words WordsFacts Types OptBytes TypesSpec TypesFacts TraitFacts FindingsFacts StringSpec.
Import ListNotations.
Open Scope N_scope.
Ltac Zify.zify_post_hook ::= Z.div_mod_to_equations.

Lemma le_decode_app a b : le_decode (a ++ b) = le_decode a + wbase (length a) * le_decode b.
Proof.
  induction a as [|x a IH]; cbn [app le_decode length].
  - unfold wbase. cbn [N.of_nat]. rewrite N.pow_0_r. lia.
  - rewrite IH, wbase_S. lia.
Qed.

Lemma skipn_again {A} n m (l : list A) : skipn n (skipn m l) = skipn (m + n) l.
Proof. apply nth_error_ext. intros i. rewrite !nth_error_skipn. f_equal. lia. Qed.

Lemma slice_split off n m b : slice off (n + m) b = slice off n b ++ slice (off + n) m b.
Proof.
  unfold slice. rewrite <- (firstn_skipn n (firstn (n + m) (skipn off b))). f_equal.
  - rewrite firstn_firstn. now replace (Nat.min n (n + m)) with n by lia.
  - rewrite <- firstn_skipn_comm. now rewrite skipn_again.
Qed.

Lemma read_split off n m b : (off + n <= length b)%nat ->
  read_word off (n + m) b = read_word off n b + wbase n * read_word (off + n) m b.
Proof.
  intros H. unfold read_word. rewrite slice_split, le_decode_app. now rewrite slice_length.
Qed.

(** The first and the last byte of a word. *)
Lemma read_first p b : wf_p p -> (p <= length b)%nat ->
  exists r, read_word 0 p b = read_word 0 1 b + 256 * r.
Proof.
  intros Hp H. exists (read_word 1 (p - 1) b).
  replace p with (1 + (p - 1))%nat at 1 by (destruct Hp; lia). rewrite read_split by (destruct Hp; lia). reflexivity.
Qed.
Lemma read_last p b : wf_p p -> sized (3 * p) b ->
  exists r, r < wbase p / 256 /\ read_word (2 * p) p b = r + wbase p / 256 * read_word (3 * p - 1) 1 b.
Proof.
  intros Hp [Hl Hb]. exists (read_word (2 * p) (p - 1) b).
  assert (He : wbase p / 256 = wbase (p - 1)) by (destruct Hp as [->| ->]; reflexivity).
  rewrite He. split; [apply read_word_bound; [exact Hb|destruct Hp; lia]|].
  replace p with ((p - 1) + 1)%nat at 2 by (destruct Hp; lia). rewrite read_split by (destruct Hp; lia).
  do 3 f_equal. destruct Hp; lia.
Qed.

Lemma small_capacity e : 0 < e -> e <= 8 -> 1 <= stl_small_capacity e.
Proof.
  intros H0 H8. unfold stl_small_capacity.
  assert (2 <= 16 / e) by (apply N.div_le_lower_bound; lia). lia.
Qed.

(** Where the tables of option.hpp 1619-1655 point. *)
Lemma offsets p lib : wf_p p ->
  string_size p lib = match lib with STL d => (if d then p else 0) + 16 + p + p | LibCpp _ => 3 * p | LibStdCpp => p + p + 16 end%nat /\
  string_size_offset p lib = match lib with STL d => (if d then p else 0) + 16 | _ => p end%nat /\
  string_mark_offset p lib = match lib with STL d => (if d then p else 0) + 16 + p | LibCpp true => 2 * p | _ => 0 end%nat /\
  string_mark p lib = match lib with LibCpp false => 1 | LibCpp true => wbase p / 2 | _ => 0 end.
Proof. intros [->| ->]; destruct lib as [[]|[]|]; repeat split. Qed.

Lemma string_sized p e lib b : wf_p p -> string_object p e lib b -> sized (sizeof (TString p lib)) b.
Proof.
  intros Hp H. cbn [sizeof]. destruct (offsets p lib Hp) as [-> _].
  destruct H; assumption.
Qed.

Lemma string_mark_iff p e lib b : wf_p p -> string_object p e lib b ->
  (read_word (string_mark_offset p lib) p b = string_mark p lib <->
   exists d, lib = STL d /\ capacity_word p lib b = 0).
Proof.
  intros Hp H. destruct (offsets p lib Hp) as [_ [_ [-> ->]]].
  destruct H as [d b proxy Hs Hle Hc|b k Hs Hk|b c Hs Hc Hk|b Hs Hk|b c Hs Hc Hk|b Hs Hn].
  - subst proxy. cbn [capacity_word]. split; [intros E; exists d; split; [reflexivity|exact E]|].
    intros [d' [[= <-] E]]. exact E.
  - split; [|intros [d [[=] _]]]. intros E. exfalso. destruct Hs as [Hl _].
    destruct (read_first p b Hp) as [r Hr]; [lia|]. lia.
  - split; [|intros [d [[=] _]]]. intros E. exfalso. lia.
  - split; [|intros [d [[=] _]]]. intros E. exfalso.
    destruct (read_last p b Hp Hs) as [r [Hb Hr]]. rewrite Hr in E.
    assert (Hw : wbase p / 2 = 128 * (wbase p / 256)) by (destruct Hp as [->| ->]; reflexivity).
    rewrite Hw in E. set (k := wbase p / 256) in *. nia.
  - split; [|intros [d [[=] _]]]. intros E. exfalso. lia.
  - split; [|intros [d [[=] _]]]. intros E. contradiction.
Qed.

Lemma string_seen p e lib b : wf_p p -> string_object p e lib b ->
  get_level (TString p lib) b =
    Ok (match lib with
        | STL _ => if capacity_word p lib b =? 0 then size_word p lib b else umax_base - 1
        | _ => umax_base - 1
        end).
Proof.
  intros Hp H. cbn [get_level]. unfold string_get.
  pose proof (string_mark_iff p e lib b Hp H) as Hi.
  destruct (offsets p lib Hp) as [_ [Ho _]].
  destruct (N.eqb_spec (read_word (string_mark_offset p lib) p b) (string_mark p lib)) as [E|E].
  - destruct (proj1 Hi E) as [d [-> Hc]]. rewrite Hc. cbn [N.eqb]. rewrite Ho. reflexivity.
  - destruct lib as [d| |]; try reflexivity.
    destruct (N.eqb_spec (capacity_word p (STL d) b) 0) as [Ec|_]; [|reflexivity].
    exfalso. apply E, Hi. exists d. split; [reflexivity|exact Ec].
Qed.

Lemma string_capacity p e d b : string_object p e (STL d) b ->
  stl_small_capacity e <= capacity_word p (STL d) b /\ size_word p (STL d) b <= capacity_word p (STL d) b.
Proof.
  intros H. inversion H as [d' b' proxy Hs Hle Hc E1 E2| | | | |]; subst. split; assumption.
Qed.

Lemma strings_held p e lib b : wf_p p -> 0 < e -> ((exists d, lib = STL d) -> e <= 8) -> string_object p e lib b ->
  get_level (TString p lib) b = Ok (umax_base - 1) /\ valid (TString p lib) b /\ ~ reserved (TString p lib) b.
Proof.
  intros Hp H0 H8 H.
  assert (Hg : get_level (TString p lib) b = Ok (umax_base - 1)).
  { rewrite (string_seen p e lib b Hp H). destruct lib as [d| |]; try reflexivity.
    destruct (string_capacity p e d b H) as [Hc _].
    pose proof (small_capacity e H0 (H8 (ex_intro _ d eq_refl))).
    destruct (N.eqb_spec (capacity_word p (STL d) b) 0) as [E|_]; [lia|reflexivity]. }
  split; [exact Hg|]. split.
  - cbn [valid]. split; [exact (string_sized p e lib b Hp H)|]. intros E.
    destruct (proj1 (string_mark_iff p e lib b Hp H) E) as [d [-> Hc]].
    destruct (string_capacity p e d b H) as [Hc' _].
    pose proof (small_capacity e H0 (H8 (ex_intro _ d eq_refl))). lia.
  - intros [l [E Hl]]. rewrite Hg in E. injection E as <-. cbn [max_level] in Hl.
    assert (umax_base - 1 < 255) by exact Hl. vm_compute in H1. discriminate.
Qed.

(** Larger elements: only a string whose capacity is 0 looks unused, and it looks like level 0. *)
Lemma strings_large p e lib b : wf_p p -> string_object p e lib b ->
  (reserved (TString p lib) b <-> exists d, lib = STL d /\ capacity_word p lib b = 0) /\
  (reserved (TString p lib) b -> get_level (TString p lib) b = Ok 0).
Proof.
  intros Hp H. pose proof (string_seen p e lib b Hp H) as Hg.
  assert (Hu : ~ umax_base - 1 < 255) by (vm_compute; discriminate).
  assert (Hi : reserved (TString p lib) b -> exists d, lib = STL d /\ capacity_word p lib b = 0).
  { intros [l [E Hl]]. cbn [max_level] in Hl. rewrite Hg in E. injection E as <-.
    destruct lib as [d| |]; try contradiction.
    destruct (N.eqb_spec (capacity_word p (STL d) b) 0) as [Ec|_]; [|contradiction].
    exists d. split; [reflexivity|exact Ec]. }
  assert (H0 : forall d, lib = STL d -> capacity_word p lib b = 0 -> get_level (TString p lib) b = Ok 0).
  { intros d -> Hc. rewrite Hg, Hc. cbn [N.eqb]. destruct (string_capacity p e d b H) as [_ Hs].
    f_equal. lia. }
  split; [split; [exact Hi|]|].
  - intros [d [E Hc]]. exists 0. split; [exact (H0 d E Hc)|reflexivity].
  - intros Hr. destruct (Hi Hr) as [d [E Hc]]. exact (H0 d E Hc).
Qed.

Definition empty_large : bytes := repeat 0 32.
Lemma large_elements : string_object 8 16 (STL false) empty_large /\ get_level (TString 8 (STL false)) empty_large = Ok 0.
Proof.
  split; [|reflexivity]. apply stl_string.
  - apply bytes_ok_sized. reflexivity.
  - vm_compute. discriminate.
  - vm_compute. discriminate.
Qed.

(** The words that an unused state has. *)
Lemma unused_iff p lib b : wf_p p -> sized (sizeof (TString p lib)) b ->
  (reserved (TString p lib) b <-> unused_string p lib b).
Proof.
  intros Hp Hs. rewrite (string_reserved p lib b Hp Hs). cbn [sizeof] in Hs.
  unfold unused_string. destruct (offsets p lib Hp) as [Ez [-> [-> ->]]]. rewrite Ez in Hs.
  destruct lib as [d|[]|]; cbn [capacity_word size_word].
  - tauto.
  - destruct (read_last p b Hp Hs) as [r [Hb Hr]]. destruct Hs as [Hl Hb'].
    assert (Hw : wbase p / 2 = 128 * (wbase p / 256)) by (destruct Hp as [->| ->]; reflexivity).
    assert (Hwp : wbase p = 256 * (wbase p / 256)) by (destruct Hp as [->| ->]; reflexivity).
    assert (Hpos : 0 < wbase p / 256) by (destruct Hp as [->| ->]; reflexivity).
    assert (H1 : read_word (2 * p) p b < wbase p) by (apply read_word_bound; [exact Hb'|destruct Hp; lia]).
    assert (Hm : (read_word (2 * p) p b mod (wbase p / 2) = 0 /\ 128 <= read_word (3 * p - 1) 1 b) <->
                 read_word (2 * p) p b = wbase p / 2).
    { set (k := wbase p / 256) in *. set (t := read_word (3 * p - 1) 1 b) in *.
      set (w := read_word (2 * p) p b) in *. rewrite Hw. clearbody k t w.  split.
      - intros [Em Ht]. apply N.mod_divide in Em; [|lia]. destruct Em as [z Ez'].
        assert (z < 2) by nia. assert (z <> 0) by nia. assert (z = 1) as -> by lia. lia.
      - intros E. rewrite E. split; [apply N.mod_same; lia|]. nia. }
    tauto.
  - destruct Hs as [Hl _]. destruct (read_first p b Hp) as [r Hr]; [lia|].
    assert (Hm : (read_word 0 p b / 2 = 0 /\ N.odd (read_word 0 1 b) = true) <-> read_word 0 p b = 1).
    { rewrite Hr. set (x := read_word 0 1 b). split.
      - intros [E1 E2]. apply N.odd_spec in E2. destruct E2 as [y E2]. lia.
      - intros E. assert (x = 1) as -> by lia. split; [|reflexivity]. rewrite E. reflexivity. }
    tauto.
  - tauto.
Qed.

(** Of libstdc++ the capacity stays what it was. *)
Lemma gnu_capacity_kept p l b b' : wf_p p -> sized (p + p + 16) b -> l < 255 ->
  set_level (TString p LibStdCpp) l b = Ok b' -> capacity_word p LibStdCpp b' = capacity_word p LibStdCpp b.
Proof.
  intros Hp [Hl Hb] Hlt. cbn [set_level]. unfold string_set, verify.
  destruct (N.ltb_spec l 255) as [_|]; [|lia].
  destruct (offsets p LibStdCpp Hp) as [_ [-> [-> ->]]]. intros E. apply f_equal with (f := fun r => match r with Ok x => x | _ => b end) in E.
  cbv beta iota in E. subst b'. cbn [capacity_word]. unfold gnu_capacity.
  rewrite read_write_disjoint by (rewrite ?write_word_length; lia).
  apply read_write_disjoint; lia.
Qed.

Lemma unused_no_string p e lib l b b' : wf_p p -> 0 < e -> ((exists d, lib = STL d) -> e <= 8) ->
  l < max_level (TString p lib) -> sized (sizeof (TString p lib)) b -> set_level (TString p lib) l b = Ok b' ->
  unused_string p lib b' /\ size_word p lib b' = l /\ ~ string_object p e lib b'.
Proof.
  intros Hp H0 H8 Hl Hb Hs. destruct (contract_string p lib Hp) as [_ _ Hc _].
  destruct (Hc l b Hl Hb) as [b2 [E [Hs2 Hg]]]. rewrite Hs in E. injection E as <-.
  assert (Hr : reserved (TString p lib) b') by (exists l; split; [exact Hg|exact Hl]).
  split; [exact (proj1 (unused_iff p lib b' Hp Hs2) Hr)|]. split.
  - cbn [get_level] in Hg. unfold string_get in Hg.
    destruct (N.eqb_spec (read_word (string_mark_offset p lib) p b') (string_mark p lib)) as [_|_].
    + injection Hg as Hg. rewrite <- Hg. unfold size_word. destruct (offsets p lib Hp) as [_ [-> _]]. destruct lib as [| |]; reflexivity.
    + injection Hg as Hg. cbn [max_level] in Hl. rewrite <- Hg in Hl. vm_compute in Hl. discriminate.
  - intros Ho. destruct (strings_held p e lib b' Hp H0 H8 Ho) as [_ [_ Hn]]. contradiction.
Qed.

Lemma large_elements_empty : exists b,
  string_object 8 16 (STL false) b /\ get_level (TString 8 (STL false)) b = Ok 0 /\
  opt_has_value (TString 8 (STL false)) b = Ok false.
Proof.
  exists empty_large. destruct large_elements as [H1 H2]. split; [exact H1|]. split; [exact H2|]. vm_compute. reflexivity.
Qed.

Definition long_gnu : bytes := le_encode 8 0x55500010 ++ le_encode 8 90 ++ le_encode 8 100 ++ repeat 0 8.
Lemma gnu_capacity_long : exists b b',
  string_object 8 1 LibStdCpp b /\ set_level (TString 8 LibStdCpp) 0 b = Ok b' /\ capacity_word 8 LibStdCpp b' = 100.
Proof.
  exists long_gnu, (repeat 0 16 ++ le_encode 8 100 ++ repeat 0 8). split; [|split; vm_compute; reflexivity].
  apply gnu_string; [apply bytes_ok_sized; vm_compute; reflexivity|vm_compute; discriminate].
Qed.
