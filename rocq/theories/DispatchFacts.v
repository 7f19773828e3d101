(** Facts about the selection of option traits (Dispatch.v). *)
From Coq Require Import ZArith NArith List Bool Arith Lia ZifyBool ZifyNat ZifyN.
From Verif Require Import Outcome Words Ints Types TraitFacts Select SelectFacts Dispatch.
Import ListNotations.
Open Scope N_scope.

(** * Induction over descriptions *)

Definition all_members (Q : cty -> Prop) (o : option (list (nat * cty))) : Prop :=
  match o with Some fs => Forall (fun f => Q (snd f)) fs | None => True end.

Section Ind.
Variable Q : cty -> Prop.
Hypothesis leaf : forall c,
  match c with
  | CClass _ _ _ _ _ _ | CPair _ _ _ _ _ _ | CTuple _ _ _ | CArray _ _ | CComplex _ | COption _ | CMember _ _ _ _
  | CEnforce _ | CConst _ => False
  | _ => True
  end -> Q c.
Hypothesis cls : forall n a p d tl rf, all_members Q tl -> all_members Q rf -> Q (CClass n a p d tl rf).
Hypothesis pair : forall o1 c1 o2 c2 n a, Q c1 -> Q c2 -> Q (CPair o1 c1 o2 c2 n a).
Hypothesis tup : forall fs n a, Forall (fun f => Q (snd f)) fs -> Q (CTuple fs n a).
Hypothesis arr : forall n c, Q c -> Q (CArray n c).
Hypothesis cplx : forall c, Q c -> Q (CComplex c).
Hypothesis opt : forall c, Q c -> Q (COption c).
Hypothesis mem : forall o c n a, Q c -> Q (CMember o c n a).
Hypothesis enf : forall c, Q c -> Q (CEnforce c).
Hypothesis cst : forall c, Q c -> Q (CConst c).

Fixpoint cty_ind' (c : cty) : Q c :=
  let members := fix go (fs : list (nat * cty)) : Forall (fun f => Q (snd f)) fs :=
    match fs with
    | [] => Forall_nil _
    | f :: fs' => Forall_cons f (cty_ind' (snd f)) (go fs')
    end in
  let opt_members (o : option (list (nat * cty))) : all_members Q o :=
    match o as o' return all_members Q o' with Some fs => members fs | None => Logic.I end in
  match c with
  | CClass n a p d tl rf => cls n a p d tl rf (opt_members tl) (opt_members rf)
  | CPair o1 c1 o2 c2 n a => pair o1 c1 o2 c2 n a (cty_ind' c1) (cty_ind' c2)
  | CTuple fs n a => tup fs n a (members fs)
  | CArray n c' => arr n c' (cty_ind' c')
  | CComplex c' => cplx c' (cty_ind' c')
  | COption c' => opt c' (cty_ind' c')
  | CMember o c' n a => mem o c' n a (cty_ind' c')
  | CEnforce c' => enf c' (cty_ind' c')
  | CConst c' => cst c' (cty_ind' c')
  | c' => leaf c' Logic.I
  end.
End Ind.

(** * The largest element of a list *)

Lemma find_max_repeat : forall n x, n <> O -> find_max_level (repeat x n) = x.
Proof.
  intros n x Hn. apply N.le_antisymm.
  - apply find_max_bound. intros y Hy. apply repeat_spec in Hy. lia.
  - apply find_max_ge. destruct n; [congruence|]. now left.
Qed.

(** If every element but the selected one is lowered, the same one is selected. *)
Lemma find_max_lower : forall {A} (f g : A -> N) (l : list A),
  (forall x, In x l -> g x <= f x) ->
  find_max_level (map g l) <= find_max_level (map f l).
Proof.
  intros A f g l H. apply find_max_bound. intros y Hy. apply in_map_iff in Hy. destruct Hy as (x & <- & Hx).
  etransitivity; [apply H, Hx|]. apply find_max_ge. now apply in_map.
Qed.
Lemma find_max_same : forall {A} (f g : A -> N) (w : A -> bool) (l : list A),
  (forall x, In x l -> g x <= f x /\ (w x = true -> g x = f x)) ->
  nth (index_of_max (map f l)) (map w l) false = true ->
  find_max_level (map g l) = find_max_level (map f l).
Proof.
  intros A f g w l H Hw. destruct l as [|x0 l0]; [reflexivity|]. set (l := x0 :: l0) in *.
  apply N.le_antisymm; [apply find_max_lower; intros; now apply H|].
  unfold find_max_level at 1. set (i := index_of_max (map f l)) in *.
  destruct (nth_error l i) as [x|] eqn:E.
  - assert (Hx : In x l) by (eapply nth_error_In; eauto).
    rewrite (nth_error_nth _ _ false (map_nth_error w i l E)) in Hw.
    rewrite (nth_error_nth _ _ 0 (map_nth_error f i l E)). destruct (H x Hx) as [_ He]. rewrite <- (He Hw).
    apply find_max_ge. now apply in_map.
  - apply nth_error_None in E. rewrite nth_overflow in Hw by (rewrite map_length; lia). discriminate.
Qed.

(** * Levels of described types and of the types of Types.v *)

Section Facts.
Variable P : platform.
Hypothesis HB : pf_builtin P = true.

Lemma opaque_le : forall n a (x : N), max_level (TOpaque n a) <= x.
Proof. intros. cbn. lia. Qed.

(** Leaves: exactly the same number, also for const. *)
Lemma leaf_levels : forall c,
  match c with
  | CClass _ _ _ _ _ _ | CPair _ _ _ _ _ _ | CTuple _ _ _ | CArray _ _ | CComplex _ | COption _ | CMember _ _ _ _
  | CEnforce _ | CConst _ => False
  | _ => True
  end ->
  traits_max P false c = max_level (to_ty P c) /\ traits_max P true c = const_max_level (to_ty P c).
Proof.
  intros c H. destruct c; try (now destruct H);
    unfold traits_max, determine, dispatch, strategy_max, float_strategy, enum_strategy, to_ty, is_some,
      is_pointer, is_member_pointer, size_of, is_polymorphic, has_padding_member, is_custom_tuple_like, is_reflectable;
    rewrite ?HB, ?andb_false_r; cbn [andb]; try (split; reflexivity).
  - destruct (Nat.eqb size 8), (Nat.eqb size 4); now split.
  - destruct (Nat.eqb size 4) eqn:E4, (Nat.leb 8 size); now split.
  - destruct iec559, snan, qnan, (Nat.eqb size 8), (Nat.eqb size 4), (Nat.eqb (pf_ptr P) 4); now split.
  - destruct sent, start, fin, (pf_enums P), (isg u); now split.
  - destruct (pf_known_std P), (ebo a); now split.
  - destruct (pf_known_std P), (ebo a); now split.
  - destruct default_delete; now split.
Qed.

Lemma class_levels : forall k n a p d tl rf, sound P (CClass n a p d tl rf) = true ->
  traits_max P k (CClass n a p d tl rf) =
  match p, d, tl, rf with
  | true, _, _, _ => 255
  | false, Some (_, w), _, _ => padding_max w
  | false, None, Some fs, _ => find_max_level (map (fun f => traits_max P k (snd f)) fs)
  | false, None, None, Some fs => if pf_pfr P then find_max_level (map (fun f => traits_max P k (snd f)) fs) else 0
  | false, None, None, None => 0
  end.
Proof.
  intros k n a p d tl rf H. cbn [sound] in H. apply andb_prop in H. destruct H as [H _]. apply andb_prop in H. destruct H as [H _].
  destruct p; cbn [negb orb] in H.
  - destruct tl, rf; cbn [traits_max]; rewrite HB; unfold determine; destruct k; cbn; rewrite H; reflexivity.
  - destruct d as [[o w]|]; [|destruct tl as [fs|], rf as [fs'|]];
      try (destruct tl as [fs|], rf as [fs'|]); cbn [traits_max]; rewrite HB; unfold determine; destruct k; cbn;
      try reflexivity; destruct (pf_pfr P); reflexivity.
Qed.

Lemma pair_levels : forall k o1 c1 o2 c2 n a,
  traits_max P k (CPair o1 c1 o2 c2 n a) = N.max (traits_max P k c1) (traits_max P k c2).
Proof.
  intros. cbn [traits_max]. rewrite HB. unfold determine. destruct k; cbn [dispatch is_pointer is_member_pointer is_polymorphic
    has_padding_member is_custom_tuple_like andb strategy_max nth].
  - apply N.le_antisymm.
    + apply find_max_bound. intros x [<-|[<-|[]]]; lia.
    + apply N.max_lub; apply find_max_ge; cbn; auto.
  - destruct (_ <? _) eqn:E; lia.
Qed.
Lemma tuple_levels : forall k fs n a,
  traits_max P k (CTuple fs n a) = find_max_level (map (fun f => traits_max P k (snd f)) fs).
Proof. intros. cbn [traits_max]. rewrite HB. unfold determine. destruct k, fs; reflexivity. Qed.
Lemma array_levels : forall k n c,
  traits_max P k (CArray n c) = if Nat.eqb n 0 then 0 else traits_max P k c.
Proof.
  intros. cbn [traits_max]. rewrite HB. unfold determine. destruct k; cbn [dispatch is_pointer is_member_pointer is_polymorphic
    has_padding_member is_custom_tuple_like andb strategy_max nth].
  - destruct n; [reflexivity|]. rewrite find_max_repeat by congruence. reflexivity.
  - destruct n; reflexivity.
Qed.
Lemma complex_levels : forall c, traits_max P false (CComplex c) = traits_max P false c.
Proof. intros. cbn [traits_max]. rewrite HB. reflexivity. Qed.
Lemma option_levels : forall c, traits_max P false (COption c) =
  if 1 <=? traits_max P false c then traits_max P false c - 1 else 254.
Proof. intros. cbn [traits_max]. rewrite HB. unfold determine. cbn [dispatch]. destruct (1 <=? traits_max P false c); reflexivity. Qed.
Lemma const_complex : forall c, traits_max P true (CComplex c) = 0.
Proof. intros. cbn [traits_max]. rewrite HB. unfold determine; cbn. now rewrite andb_false_r. Qed.
Lemma const_option : forall c, traits_max P true (COption c) = 0.
Proof. intros. cbn [traits_max]. rewrite HB. unfold determine; cbn. now rewrite andb_false_r. Qed.

Lemma pair_max : forall o1 t1 o2 t2 n a, max_level (TPair o1 t1 o2 t2 n a) = N.max (max_level t1) (max_level t2).
Proof. intros. cbn [max_level]. destruct (_ <? _) eqn:E; lia. Qed.

Lemma members_forall : forall (Q : cty -> Prop) (s : cty -> bool) fs,
  Forall (fun f : nat * cty => s (snd f) = true -> Q (snd f)) fs ->
  forallb (fun f => s (snd f)) fs = true -> forall f, In f fs -> Q (snd f).
Proof. intros Q s fs H Hs f Hf. rewrite Forall_forall in H. rewrite forallb_forall in Hs. auto. Qed.

Lemma map_to_ty : forall (h : ty -> N) (fs : list (nat * cty)),
  map (fun f => h (snd f)) (map (fun f => (fst f, to_ty P (snd f))) fs) = map (fun f => h (to_ty P (snd f))) fs.
Proof. intros. rewrite map_map. reflexivity. Qed.

Lemma nth_writable : forall (f : cty -> N) (w : cty -> bool) (fs : list (nat * cty)),
  (forall x, In x fs -> f (snd x) = 0 \/ w (snd x) = true) ->
  find_max_level (map (fun x => f (snd x)) fs) = 0
  \/ nth (index_of_max (map (fun x => f (snd x)) fs)) (map (fun x => w (snd x)) fs) false = true.
Proof.
  intros f w fs H. destruct fs as [|x0 fs0]; [now left|]. set (fs := x0 :: fs0) in *.
  unfold find_max_level. set (i := index_of_max _). destruct (nth_error fs i) as [x|] eqn:E.
  - rewrite (nth_error_nth _ _ false (map_nth_error (fun x => w (snd x)) i fs E)).
    rewrite (nth_error_nth _ _ 0 (map_nth_error (fun x => f (snd x)) i fs E)). apply H. eapply nth_error_In; eauto.
  - left. apply nth_overflow. rewrite map_length. now apply nth_error_None.
Qed.

(** Without const inside, set_level compiles. *)
Lemma const_free_writable : forall c, const_free c = true -> sound P c = true ->
  traits_max P false c = 0 \/ writable P false c = true.
Proof.
  induction c using cty_ind'; intros Hc Hs.
  - right. destruct c; try (now destruct H); reflexivity.
  - rewrite class_levels by exact Hs. cbn [const_free] in Hc. apply andb_prop in Hc. destruct Hc as [Hct Hcr].
    cbn [sound] in Hs. apply andb_prop in Hs. destruct Hs as [Hs Hr]. apply andb_prop in Hs. destruct Hs as [_ Ht].
    destruct p; [now right|]. destruct d as [[o w]|]; [now right|].
    destruct tl as [fs|]; [|destruct rf as [fs|]; [|now left]].
    + cbn [writable negb andb]. apply nth_writable. cbn [all_members] in H. rewrite Forall_forall in H. rewrite forallb_forall in Hct, Ht. auto.
    + cbn [writable negb andb]. destruct (pf_pfr P); [|now left].
      apply nth_writable. cbn [all_members] in H0. rewrite Forall_forall in H0. rewrite forallb_forall in Hcr, Hr. auto.
  - cbn [const_free sound] in *. apply andb_prop in Hc, Hs. destruct Hc as [A1 A2], Hs as [B1 B2].
    specialize (IHc1 A1 B1). specialize (IHc2 A2 B2). rewrite pair_levels. cbn [writable negb andb].
    destruct (_ <? _) eqn:E; [destruct IHc1; [left; lia|auto]|destruct IHc2; [left; lia|auto]].
  - rewrite tuple_levels. cbn [writable negb andb]. cbn [const_free sound] in *. apply nth_writable.
    rewrite Forall_forall in H. rewrite forallb_forall in Hc, Hs. auto.
  - rewrite array_levels. cbn [writable negb andb const_free sound] in *. destruct (IHc Hc Hs); [left|now right]. destruct (Nat.eqb n 0); auto.
  - now right.
  - rewrite option_levels. cbn [writable negb andb const_free sound] in *. apply andb_prop in Hs. destruct Hs as [Hs _]. apply andb_prop in Hs. destruct Hs as [Hs _].
    right. destruct (1 <=? _) eqn:E; [|reflexivity]. destruct (IHc Hc Hs); [lia|auto].
  - cbn [traits_max writable negb andb const_free sound] in *. auto.
  - cbn [traits_max writable negb andb const_free sound] in *. auto.
  - discriminate.
Qed.

(** What the header computes is what Types.v says, whenever set_level compiles; otherwise Types.v has
    fewer levels (the const members count nothing). *)
Definition agrees (c : cty) : Prop :=
  max_level (to_ty P c) <= traits_max P false c
  /\ (writable P false c = true -> max_level (to_ty P c) = traits_max P false c).
Theorem levels_agree : forall c, sound P c = true -> agrees c.
Proof.
  unfold agrees.
  induction c using cty_ind'; intros Hs.
  - destruct (leaf_levels c H) as [E _]. rewrite E. split; [reflexivity|auto].
  - rewrite class_levels by exact Hs. cbn [sound] in Hs. apply andb_prop in Hs. destruct Hs as [Hs Hr]. apply andb_prop in Hs. destruct Hs as [_ Ht].
    destruct p; [cbn; split; [lia|auto]|]. destruct d as [[o w]|]; [cbn; split; [lia|auto]|].
    destruct tl as [fs|]; [|destruct rf as [fs|]; [|cbn; split; [lia|auto]]].
    + pose proof (members_forall agrees (sound P) _ H Ht) as HM. cbn [to_ty max_level writable negb andb]. rewrite map_to_ty.
      split; [apply find_max_lower; intros f Hf; now apply HM|].
      intros Hw. apply (find_max_same (fun f => traits_max P false (snd f)) _ (fun f => writable P false (snd f))); auto.
    + pose proof (members_forall agrees (sound P) _ H0 Hr) as HM. cbn [to_ty writable negb andb]. destruct (pf_pfr P); [|cbn; split; [lia|auto]].
      cbn [max_level]. rewrite map_to_ty.
      split; [apply find_max_lower; intros f Hf; now apply HM|].
      intros Hw. apply (find_max_same (fun f => traits_max P false (snd f)) _ (fun f => writable P false (snd f))); auto.
  - cbn [sound] in Hs. apply andb_prop in Hs. destruct Hs as [H1 H2]. destruct (IHc1 H1) as [L1 E1], (IHc2 H2) as [L2 E2].
    rewrite pair_levels. cbn [to_ty writable negb andb]. rewrite pair_max. split; [lia|].
    destruct (_ <? _) eqn:E; intros Hw; [rewrite (E1 Hw) in *|rewrite (E2 Hw) in *]; lia.
  - pose proof (members_forall agrees (sound P) _ H Hs) as HM. rewrite tuple_levels. cbn [to_ty max_level writable negb andb]. rewrite map_to_ty.
    split; [apply find_max_lower; intros f Hf; now apply HM|].
    intros Hw. apply (find_max_same (fun f => traits_max P false (snd f)) _ (fun f => writable P false (snd f))); auto.
  - rewrite array_levels. cbn [to_ty max_level writable negb andb sound] in *. destruct (IHc Hs). destruct (Nat.eqb n 0); [split; [lia|auto]|auto].
  - rewrite complex_levels. cbn [to_ty max_level sound] in *. apply andb_prop in Hs. destruct Hs as [Hs Hc].
    destruct (IHc Hs) as [L E]. assert (E' : max_level (to_ty P c) = traits_max P false c).
    { destruct (const_free_writable c Hc Hs); [lia|auto]. }
    rewrite E'. split; [lia|auto].
  - rewrite option_levels. cbn [sound] in Hs. apply andb_prop in Hs. destruct Hs as [Hs Hn]. apply andb_prop in Hs. destruct Hs as [Hs Hi].
    destruct (IHc Hs) as [L E]. unfold instantiable in Hi. cbn [to_ty max_level].
    assert (Hi' : (traits_max P false c =? 0) || writable P false c = true) by (destruct c; auto; discriminate). clear Hi Hn.
    assert (Heq : (if max_level (to_ty P c) =? 0 then 254 else max_level (to_ty P c) - 1) =
                  (if 1 <=? traits_max P false c then traits_max P false c - 1 else 254)).
    { destruct (traits_max P false c =? 0) eqn:E0.
      - assert (max_level (to_ty P c) = 0) by lia. rewrite H. destruct (1 <=? _) eqn:E1; [lia|reflexivity].
      - rewrite (E Hi'). destruct (1 <=? _) eqn:E1; [|lia]. rewrite E0. reflexivity. }
    rewrite Heq. split; [lia|auto].
  - cbn [traits_max to_ty max_level writable negb andb sound] in *. auto.
  - cbn [traits_max to_ty max_level writable negb andb sound] in *. auto.
  - cbn [to_ty max_level writable]. split; [lia|discriminate].
Qed.

(** Without const inside: the same number, for the type and for the const type. *)
Theorem levels_const_free : forall c, const_free c = true -> sound P c = true ->
  traits_max P false c = max_level (to_ty P c) /\ traits_max P true c = const_max_level (to_ty P c).
Proof.
  intros c Hc Hs. split.
  { destruct (levels_agree c Hs) as [L E]. destruct (const_free_writable c Hc Hs); [lia|symmetry; auto]. }
  revert Hc Hs. induction c using cty_ind'; intros Hc Hs.
  - now apply leaf_levels.
  - rewrite class_levels by exact Hs. cbn [const_free] in Hc. apply andb_prop in Hc. destruct Hc as [Hct Hcr].
    cbn [sound] in Hs. apply andb_prop in Hs. destruct Hs as [Hs Hr]. apply andb_prop in Hs. destruct Hs as [_ Ht].
    destruct p; [reflexivity|]. destruct d as [[o w]|]; [reflexivity|].
    destruct tl as [fs|]; [|destruct rf as [fs|]; [|reflexivity]].
    + cbn [to_ty const_max_level]. rewrite map_to_ty. f_equal. apply map_ext_in. intros f Hf.
      cbn [all_members] in H. rewrite Forall_forall in H. rewrite forallb_forall in Hct, Ht. auto.
    + cbn [to_ty]. destruct (pf_pfr P); [|reflexivity]. cbn [const_max_level]. rewrite map_to_ty. f_equal. apply map_ext_in. intros f Hf.
      cbn [all_members] in H0. rewrite Forall_forall in H0. rewrite forallb_forall in Hcr, Hr. auto.
  - cbn [const_free sound] in *. apply andb_prop in Hc, Hs. destruct Hc as [A1 A2], Hs as [B1 B2].
    rewrite pair_levels. cbn [to_ty const_max_level]. rewrite IHc1, IHc2 by auto. apply N.le_antisymm.
    + apply N.max_lub; apply find_max_ge; cbn; auto.
    + apply find_max_bound. intros x [<-|[<-|[]]]; lia.
  - rewrite tuple_levels. cbn [to_ty const_max_level const_free sound] in *. rewrite map_to_ty. f_equal. apply map_ext_in. intros f Hf.
    rewrite Forall_forall in H. rewrite forallb_forall in Hc, Hs. auto.
  - rewrite array_levels. cbn [to_ty const_max_level const_free sound] in *. rewrite IHc by auto.
    destruct n; [reflexivity|]. now rewrite find_max_repeat.
  - now rewrite const_complex.
  - now rewrite const_option.
  - reflexivity.
  - reflexivity.
  - discriminate.
Qed.

(** A const type never has writable levels. *)
Lemma const_unwritable : forall c, writable P true c = false.
Proof. destruct c; try reflexivity. destruct poly, padding as [[]|], tuple_like, reflect; reflexivity. Qed.

End Facts.

(** * The documentation *)

From Verif Require Import DispatchSpec.

Section Doc.
Variable P : platform.

Definition chosen (c : cty) : option_strategy :=
  determine P false c (match c with COption c' => traits_max P false c' | _ => 0 end).

Theorem chosen_documented : forall c, builtin c = true -> chosen c <> s_none -> documented P c (chosen c).
Proof.
  intros c Hb. unfold chosen, determine. destruct c; cbn [builtin] in Hb; try discriminate Hb;
    cbn [dispatch is_pointer is_member_pointer size_of is_polymorphic has_padding_member is_custom_tuple_like is_reflectable andb];
    rewrite ?andb_false_r; intros Hn; try (now destruct Hn); try constructor.
  - destruct (Nat.eqb size 8) eqn:E8; [apply Nat.eqb_eq in E8; subst; constructor|].
    destruct (Nat.eqb size 4) eqn:E4; [apply Nat.eqb_eq in E4; subst; constructor|now destruct Hn].
  - destruct (Nat.eqb size 4) eqn:E4; [apply Nat.eqb_eq in E4; subst; constructor|].
    destruct (Nat.leb 8 size) eqn:E8; [apply Nat.leb_le in E8; now constructor|now destruct Hn].
  - unfold float_strategy in *. destruct iec559; [|now destruct Hn]. cbn [negb orb] in *.
    destruct snan, qnan; cbn [negb andb] in *; try (now destruct Hn);
      destruct (Nat.eqb size 8) eqn:E8; try (apply Nat.eqb_eq in E8; subst size);
      try (destruct (Nat.eqb size 4) eqn:E4; [apply Nat.eqb_eq in E4; subst size|now destruct Hn]);
      destruct (Nat.eqb_spec (pf_ptr P) 4) as [Ep|Ep];
      constructor; unfold uses_signaling, uses_quiet; tauto.
  - unfold enum_strategy, is_some in *. destruct sent; [constructor|]. destruct start; [destruct fin; constructor|].
    destruct (pf_enums P && negb (isg u)) eqn:E; [|now destruct Hn]. apply andb_prop in E. now constructor.
  - destruct poly; cbn [andb] in *.
    + destruct (Nat.leb (pf_ptr P) size) eqn:E; [apply Nat.leb_le in E; now constructor|].
      destruct padding as [[]|]; [constructor|]. destruct tuple_like; [constructor|].
      destruct reflect; cbn [is_some] in *; [|rewrite andb_false_r in Hn; now destruct Hn]. rewrite andb_true_r in *.
      destruct (pf_pfr P) eqn:Ef; [now constructor|now destruct Hn].
    + destruct padding as [[]|]; [constructor|]. destruct tuple_like; [constructor|].
      destruct reflect; cbn [is_some] in *; [|rewrite andb_false_r in Hn; now destruct Hn]. rewrite andb_true_r in *.
      destruct (pf_pfr P) eqn:Ef; [now constructor|now destruct Hn].
  - destruct fs; [constructor|constructor; discriminate].
  - destruct n; [now destruct Hn|]. cbn. constructor. discriminate.
  - destruct (pf_known_std P) eqn:Ek; [|now destruct Hn]. unfold ebo in *.
    destruct (a_empty a) eqn:Ee; [|now destruct Hn]. destruct (a_final a) eqn:Ef; [now destruct Hn|]. now repeat constructor.
  - destruct (pf_known_std P) eqn:Ek; [|now destruct Hn]. unfold ebo in *.
    destruct (a_empty a) eqn:Ee; [|now destruct Hn]. destruct (a_final a) eqn:Ef; [now destruct Hn|]. now repeat constructor.
  - destruct default_delete; [constructor|now destruct Hn].
  - destruct (1 <=? traits_max P false c) eqn:E; constructor; lia.
Qed.

(** Exceptions to the documentation: enums with a signed underlying type. *)
Definition signed_enum (c : cty) : bool :=
  match c with CEnum u _ None None _ => isg u | _ => false end.

Theorem documented_chosen : forall c s, documented P c s -> signed_enum c = false ->
  chosen c <> s_none /\ (rank (chosen c) <= rank s)%nat.
Proof.
  intros c s H He. destruct H; unfold chosen, determine; try (split; [discriminate|cbn; lia]);
    cbn [dispatch is_pointer is_member_pointer size_of is_polymorphic has_padding_member is_custom_tuple_like is_reflectable andb].
  - destruct fs; [congruence|]. split; [discriminate|cbn; lia].
  - destruct (p && Nat.leb (pf_ptr P) n); [split; [discriminate|cbn; lia]|]. destruct (is_some d); (split; [discriminate|cbn; lia]).
  - destruct n; [congruence|]. cbn. split; [discriminate|lia].
  - destruct (p && Nat.leb (pf_ptr P) n); [split; [discriminate|cbn; lia]|]. destruct (is_some d); [split; [discriminate|cbn; lia]|].
    destruct (is_some t); [split; [discriminate|cbn; lia]|]. rewrite H. cbn. split; [discriminate|lia].
  - apply Nat.leb_le in H. rewrite H. split; [discriminate|cbn; lia].
  - destruct H as [-> Hp]. unfold float_strategy. cbn [negb orb andb Nat.eqb]. apply Nat.eqb_neq in Hp. rewrite Hp. split; [discriminate|cbn; lia].
  - unfold float_strategy. destruct H as [[-> Hp]|[-> ->]]; cbn [negb orb andb Nat.eqb]; [rewrite Hp; split; [discriminate|cbn; lia]|].
    destruct (Nat.eqb (pf_ptr P) 4); (split; [discriminate|cbn; lia]).
  - destruct H as [-> Hp]. unfold float_strategy. cbn [negb orb andb Nat.eqb]. apply Nat.eqb_neq in Hp. rewrite Hp. split; [discriminate|cbn; lia].
  - unfold float_strategy. destruct H as [[-> Hp]|[-> ->]]; cbn [negb orb andb Nat.eqb]; [rewrite Hp; split; [discriminate|cbn; lia]|].
    destruct (Nat.eqb (pf_ptr P) 4); (split; [discriminate|cbn; lia]).
  - rewrite H. destruct H0 as [E1 E2]. unfold ebo. rewrite E1, E2. split; [discriminate|cbn; lia].
  - rewrite H. destruct H0 as [E1 E2]. unfold ebo. rewrite E1, E2. split; [discriminate|cbn; lia].
  - destruct (p && Nat.leb (pf_ptr P) n); (split; [discriminate|cbn; lia]).
  - unfold enum_strategy. destruct se; (split; [discriminate|cbn; lia]).
  - unfold enum_strategy. destruct se; (split; [discriminate|cbn; lia]).
  - unfold enum_strategy. destruct se; [split; [discriminate|cbn; lia]|]. destruct st; [destruct f; (split; [discriminate|cbn; lia])|].
    cbn in He. rewrite H, He. split; [discriminate|cbn; lia].
  - apply Nat.leb_le in H. rewrite H. destruct (Nat.eqb n 4); (split; [discriminate|cbn; lia]).
  - destruct (1 <=? traits_max P false c); (split; [discriminate|cbn; lia]).
  - destruct (1 <=? traits_max P false c); (split; [discriminate|cbn; lia]).
Qed.

(** Whatever the documentation promises in exactly one section is what is used. *)
Theorem documented_unique : forall c s, documented P c s -> signed_enum c = false ->
  (forall s', documented P c s' -> s' = s) -> chosen c = s.
Proof.
  intros c s H He Hu. destruct (documented_chosen c s H He) as [Hn _]. apply Hu. apply chosen_documented; [|exact Hn].
  destruct H; reflexivity.
Qed.

Theorem signed_enum_none : forall c, signed_enum c = true -> chosen c = s_none.
Proof.
  intros c H. destruct c; try discriminate H. destruct sent, start; try discriminate H. cbn in H.
  unfold chosen, determine. cbn. unfold enum_strategy. cbn. rewrite H. now rewrite andb_false_r.
Qed.

(** The mechanisms that read a word of fixed size find it inside the object. *)
Theorem room : forall c,
  match chosen c, c with
  | s_pointer_64, CPointer n => n = 8%nat
  | s_pointer_32, CPointer n => n = 4%nat
  | s_member_pointer_32, CMemberPointer n => n = 4%nat
  | s_member_pointer_64, CMemberPointer n => (8 <= n)%nat
  | (s_float64_sNaN | s_float64_qNaN), CFloating n _ _ _ _ => n = 8%nat
  | (s_float32_sNaN | s_float32_qNaN), CFloating n _ _ _ _ => n = 4%nat
  | s_polymorphic, CClass n _ _ _ _ _ => (pf_ptr P <= n)%nat
  | s_pointer_64, _ | s_pointer_32, _ | s_member_pointer_32, _ | s_member_pointer_64, _ | s_float64_sNaN, _
  | s_float64_qNaN, _ | s_float32_sNaN, _ | s_float32_qNaN, _ | s_polymorphic, _ => False
  | _, _ => True
  end.
Proof.
  intros c. destruct (builtin c) eqn:Hb; [|destruct c; try discriminate Hb; unfold chosen, determine; cbn;
    rewrite ?andb_false_r; exact Logic.I].
  pose proof (chosen_documented c Hb) as H. destruct (chosen c) eqn:E; try exact Logic.I;
    specialize (H ltac:(discriminate)); inversion H; subst; auto.
Qed.
End Doc.

(** Without the built-in traits only specialisations of option_traits have levels. *)
Theorem no_builtin : forall P k c, pf_builtin P = false -> builtin c = true -> traits_max P k c = 0.
Proof.
  intros P k c HB Hb. destruct c; try discriminate Hb; cbn [traits_max]; rewrite ?HB; try reflexivity.
  destruct tuple_like, reflect; reflexivity.
Qed.

(** * Const members *)

(** option<std::pair<const A, B>>, the element type of a std::map: it can be instantiated exactly if
    the const member is not the one with more levels. *)
Theorem const_first : forall P o1 c1 o2 c2 n a, pf_builtin P = true -> const_free c2 = true -> sound P c2 = true ->
  instantiable P (CPair o1 (CConst c1) o2 c2 n a) = true <-> traits_max P true c1 <= traits_max P false c2.
Proof.
  intros P o1 c1 o2 c2 n a HB Hc Hs. unfold instantiable. rewrite pair_levels by exact HB. cbn [traits_max writable negb andb].
  destruct (const_free_writable P HB c2 Hc Hs) as [E|E].
  - destruct (_ <? _) eqn:L; split; intros H; lia.
  - destruct (_ <? _) eqn:L; rewrite ?E, ?orb_true_r, ?orb_false_r; split; intros H; try reflexivity; lia.
Qed.
Theorem const_second : forall P o1 c1 o2 c2 n a, pf_builtin P = true -> const_free c1 = true -> sound P c1 = true ->
  instantiable P (CPair o1 c1 o2 (CConst c2) n a) = true <->
  traits_max P true c2 < traits_max P false c1 \/ (traits_max P true c2 = 0 /\ traits_max P false c1 = 0).
Proof.
  intros P o1 c1 o2 c2 n a HB Hc Hs. unfold instantiable. rewrite pair_levels by exact HB. cbn [traits_max writable negb andb].
  destruct (const_free_writable P HB c1 Hc Hs) as [E|E].
  - destruct (_ <? _) eqn:L; split; intros H; lia.
  - destruct (_ <? _) eqn:L; rewrite ?E, ?orb_true_r, ?orb_false_r; split; intros H; try reflexivity; lia.
Qed.

(** * The type of Types.v uses the mechanism that is chosen *)

Theorem same_mechanism : forall P c, pf_builtin P = true -> builtin c = true -> sound P c = true ->
  stands_for (to_ty P c) (chosen P c) = true.
Proof.
  intros P c HB Hb Hs. destruct c; try discriminate Hb; unfold chosen, determine;
    cbn [dispatch is_pointer is_member_pointer size_of is_polymorphic has_padding_member is_custom_tuple_like is_reflectable andb to_ty];
    rewrite ?andb_false_r; try reflexivity.
  - destruct (Nat.eqb size 8); [reflexivity|]. destruct (Nat.eqb size 4); reflexivity.
  - destruct (Nat.eqb size 4); [reflexivity|]. destruct (Nat.leb 8 size); reflexivity.
  - unfold float_strategy. destruct iec559, snan, qnan, (Nat.eqb size 8), (Nat.eqb size 4), (Nat.eqb (pf_ptr P) 4); reflexivity.
  - unfold enum_strategy. destruct sent, start, fin, (pf_enums P), (isg u); reflexivity.
  - cbn [sound] in Hs. apply andb_prop in Hs. destruct Hs as [Hs _]. apply andb_prop in Hs. destruct Hs as [Hs _].
    destruct poly; cbn [negb orb andb] in *; [rewrite Hs; reflexivity|].
    destruct padding as [[]|]; [reflexivity|]. destruct tuple_like; [reflexivity|]. destruct reflect, (pf_pfr P); reflexivity.
  - destruct fs; reflexivity.
  - destruct n; reflexivity.
  - destruct (pf_known_std P), (ebo a); reflexivity.
  - destruct (pf_known_std P), (ebo a); reflexivity.
  - destruct default_delete; reflexivity.
  - cbn [sound] in Hs. apply andb_prop in Hs. destruct Hs as [Hs Hn]. apply andb_prop in Hs. destruct Hs as [Hs Hi].
    destruct (levels_agree P HB c Hs) as [L E]. unfold instantiable in Hi.
    assert (Hi' : (traits_max P false c =? 0) || writable P false c = true) by (destruct c; auto; discriminate).
    destruct (1 <=? traits_max P false c) eqn:E1; cbn [stands_for]; [|lia].
    destruct (traits_max P false c =? 0) eqn:E0; [lia|]. rewrite (E Hi'). now rewrite E0.
Qed.
