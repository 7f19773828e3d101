(** The level contract of every modelled type, by structural induction on the type. *)
From Coq Require Import ZArith NArith List Bool Lia ZifyBool ZifyNat ZifyN.
From Verif Require Import Outcome Words WordsFacts Ints IntsFacts Types OptBytes TypesSpec EnumFacts.
Import ListNotations.
Open Scope N_scope.
Ltac Zify.zify_post_hook ::= Z.div_mod_to_equations.

(** * Induction principle for the nested type of descriptions *)
Section TyInd.
  Variable P : ty -> Prop.
  Hypothesis H_opaque : forall n a, P (TOpaque n a).
  Hypothesis H_bool : P TBool.
  Hypothesis H_refwrap : forall p, P (TRefWrap p).
  Hypothesis H_ptr64 : P TPtr64.
  Hypothesis H_ptr32 : P TPtr32.
  Hypothesis H_f64 : forall q, P (TFloat64 q).
  Hypothesis H_f32 : forall q, P (TFloat32 q).
  Hypothesis H_poly : forall p n a, P (TPoly p n a).
  Hypothesis H_sv : forall p d, P (TStringView p d).
  Hypothesis H_uptr : forall p, P (TUniquePtr p).
  Hypothesis H_mp32 : P TMemPtr32.
  Hypothesis H_mp64 : forall n, P (TMemPtr64 n).
  Hypothesis H_pad : forall n a o w, P (TPadding n a o w).
  Hypothesis H_enum : forall w l, P (TEnumRefl w l).
  Hypothesis H_esent : forall it s, P (TEnumSent it s).
  Hypothesis H_estart : forall it s, P (TEnumStart it s).
  Hypothesis H_estartend : forall it s e, P (TEnumStartEnd it s e).
  Hypothesis H_string : forall p l, P (TString p l).
  Hypothesis H_vector : forall p, P (TVector p).
  Hypothesis H_senttr : forall it s, P (TSentTraits it s).
  Hypothesis H_sentinel : forall it l, P (TSentinel it l).
  Hypothesis H_complex : forall t, P t -> P (TComplex t).
  Hypothesis H_pair : forall o1 t1 o2 t2 n a, P t1 -> P t2 -> P (TPair o1 t1 o2 t2 n a).
  Hypothesis H_tuple : forall fs n a, Forall (fun f => P (snd f)) fs -> P (TTuple fs n a).
  Hypothesis H_array : forall n t, P t -> P (TArray n t).
  Hypothesis H_member : forall o t n a, P t -> P (TMember o t n a).
  Hypothesis H_enforce : forall t, P t -> P (TEnforce t).
  Hypothesis H_option : forall t, P t -> P (TOption t).
  Hypothesis H_optref : forall p, P (TOptRef p).
  Hypothesis H_custom : forall n a m g s i, P (TCustom n a m g s i).

  Fixpoint ty_ind' (t : ty) : P t :=
    match t with
    | TOpaque n a => H_opaque n a
    | TBool => H_bool
    | TRefWrap p => H_refwrap p
    | TPtr64 => H_ptr64
    | TPtr32 => H_ptr32
    | TFloat64 q => H_f64 q
    | TFloat32 q => H_f32 q
    | TPoly p n a => H_poly p n a
    | TStringView p d => H_sv p d
    | TUniquePtr p => H_uptr p
    | TMemPtr32 => H_mp32
    | TMemPtr64 n => H_mp64 n
    | TPadding n a o w => H_pad n a o w
    | TEnumRefl w l => H_enum w l
    | TEnumSent it s => H_esent it s
    | TEnumStart it s => H_estart it s
    | TEnumStartEnd it s e => H_estartend it s e
    | TString p l => H_string p l
    | TVector p => H_vector p
    | TSentTraits it s => H_senttr it s
    | TSentinel it l => H_sentinel it l
    | TComplex t => H_complex t (ty_ind' t)
    | TPair o1 t1 o2 t2 n a => H_pair o1 t1 o2 t2 n a (ty_ind' t1) (ty_ind' t2)
    | TTuple fs n a =>
        H_tuple fs n a
          ((fix all (l : list (nat * ty)) : Forall (fun f => P (snd f)) l :=
              match l with
              | [] => Forall_nil _
              | (o, ft) :: l' => Forall_cons (o, ft) (ty_ind' ft) (all l')
              end) fs)
    | TArray n t => H_array n t (ty_ind' t)
    | TMember o t n a => H_member o t n a (ty_ind' t)
    | TEnforce t => H_enforce t (ty_ind' t)
    | TOption t => H_option t (ty_ind' t)
    | TOptRef p => H_optref p
    | TCustom n a m g s i => H_custom n a m g s i
    end.
End TyInd.

(** * The contract *)

Definition set_ok (t : ty) : Prop :=
  forall l b, l < levels t -> sized (sizeof t) b ->
  exists b', set_level t l b = Ok b' /\ sized (sizeof t) b' /\ get_level t b' = Ok l.

Definition valid_ok (t : ty) : Prop :=
  forall b, 0 < max_level t -> valid t b ->
  exists l, get_level t b = Ok l /\ max_level t <= l /\ l < umax_base.

Record contract (t : ty) : Prop := {
  c_max : max_level t < umax_base;
  c_levels : levels t <= max_level t;
  c_set : set_ok t;
  c_valid : valid_ok t;
}.

Lemma sized_slice off n m b : sized m b -> (off + n <= m)%nat -> sized n (slice off n b).
Proof.
  intros [Hl Hb] H. split; [apply slice_length; lia|now apply slice_bytes].
Qed.

Lemma sized_splice off n m s b : sized m b -> sized n s -> (off + n <= m)%nat -> sized m (splice off s b).
Proof.
  intros [Hl Hb] [Hs Hsb] H. split; [rewrite splice_length; lia|now apply splice_bytes].
Qed.

Lemma sized_write off n m x b : sized m b -> (off + n <= m)%nat -> sized m (write_word off n x b).
Proof.
  intros [Hl Hb] H. split; [rewrite write_word_length; lia|now apply write_word_bytes].
Qed.

Lemma sized_read off n m b : sized m b -> (off + n <= m)%nat -> read_word off n b < wbase n.
Proof. intros [Hl Hb] H. apply read_word_bound; [exact Hb|lia]. Qed.

Lemma read_word_whole n b : length b = n -> read_word 0 n b = le_decode b.
Proof. intros H. unfold read_word. now rewrite slice_all. Qed.

Lemma wbase_le_umax w : wf_w w -> wbase w <= umax_base.
Proof. intros [->|[->|[->| ->]]]; vm_compute; discriminate. Qed.

Lemma wf_p_w p : wf_p p -> wf_w p.
Proof. unfold wf_p, wf_w. tauto. Qed.

Lemma wbase_p_ge p : wf_p p -> 4294967296 <= wbase p.
Proof. intros [->| ->]; vm_compute; discriminate. Qed.

(** One-word carriers. *)
Lemma word_set_ok w start max off n l b :
  (off + w <= n)%nat -> start + max <= wbase w -> l < max -> sized n b ->
  exists b', word_set w start max off l b = Ok b' /\ sized n b' /\ word_get w start off b' = Ok l.
Proof.
  intros Hoff Hs Hl Hb. unfold word_set, word_get, verify.
  destruct (N.ltb_spec l max) as [_|]; [|lia].
  exists (write_word off w (start + l) b). split; [reflexivity|]. split; [now apply sized_write|].
  destruct Hb as [Hlen Hb].
  rewrite read_write_word by lia. f_equal. apply wsub_wadd; lia.
Qed.

Lemma word_outside base x start max : start + max <= base -> 0 < max -> x < base ->
  ~ in_block start max x -> max <= wsub base x start.
Proof.
  unfold in_block. intros Hs Hm Hx Ho. destruct (N.lt_ge_cases x start) as [H|H].
  - rewrite wsub_lt by lia. lia.
  - rewrite wsub_ge by lia. lia.
Qed.

Lemma word_valid_ok w start max off n b : wf_w w ->
  (off + w <= n)%nat -> start + max <= wbase w -> 0 < max -> sized n b ->
  ~ in_block start max (read_word off w b) ->
  exists l, word_get w start off b = Ok l /\ max <= l /\ l < umax_base.
Proof.
  intros Hw Hoff Hs Hm Hb Ho. eexists; split; [reflexivity|]. split.
  - apply word_outside; try assumption. now apply (sized_read off w n).
  - pose proof (wbase_le_umax w Hw). pose proof (wsub_bound (wbase w) (read_word off w b) start (wbase_pos w)). lia.
Qed.

Ltac simple_contract :=
  constructor;
  [ cbn [max_level]; vm_compute; reflexivity
  | cbn [levels max_level]; lia
  | intros l b Hl Hb; cbn [levels max_level] in Hl; cbn [sizeof set_level get_level] in *
  | intros b Hm Hv; cbn [max_level] in *; cbn [valid sizeof get_level] in * ].

Lemma contract_opaque n a : wf (TOpaque n a) -> contract (TOpaque n a).
Proof. intros _. simple_contract; lia. Qed.

Lemma contract_bool : contract TBool.
Proof.
  simple_contract.
  - apply word_set_ok; try lia; try assumption. vm_compute; discriminate.
  - destruct Hv as [Hs Hv]. apply (word_valid_ok 1 2 254 0 1); try assumption; try lia.
    + now left.
    + vm_compute; discriminate.
    + rewrite read_word_whole by apply Hs. unfold in_block. lia.
Qed.

Lemma contract_refwrap p : wf (TRefWrap p) -> contract (TRefWrap p).
Proof.
  intros Hp. cbn [wf] in Hp. pose proof (wbase_p_ge p Hp) as Hw. simple_contract.
  - apply word_set_ok; try lia; try assumption.
  - destruct Hv as [Hs Hv]. apply (word_valid_ok p 0 256 0 p); try assumption; try lia.
    + now apply wf_p_w.
    + rewrite read_word_whole by apply Hs. unfold in_block, object_addr in *. lia.
Qed.

Lemma contract_ptr64 : contract TPtr64.
Proof.
  simple_contract.
  - apply word_set_ok; try lia; try assumption. vm_compute; discriminate.
  - destruct Hv as [Hs Hv]. apply (word_valid_ok 8 ptr64_start 512 0 8); try assumption; try lia.
    + unfold wf_w; tauto.
    + vm_compute; discriminate.
    + rewrite read_word_whole by apply Hs. unfold in_block, canonical, ptr64_start in *.
      change (2 ^ 56) with 72057594037927936 in Hv. change (2 ^ 64) with 18446744073709551616 in Hv. lia.
Qed.

Lemma contract_ptr32 : contract TPtr32.
Proof.
  simple_contract.
  - apply word_set_ok; try lia; try assumption. vm_compute; discriminate.
  - destruct Hv as [Hs Hv]. apply (word_valid_ok 4 ptr32_start 32 0 4); try assumption; try lia.
    + unfold wf_w; tauto.
    + vm_compute; discriminate.
    + rewrite read_word_whole by apply Hs. exact Hv.
Qed.

Lemma contract_f64 q : contract (TFloat64 q).
Proof.
  simple_contract.
  - apply word_set_ok; try lia; try assumption. destruct q; vm_compute; discriminate.
  - destruct Hv as [Hs Hv].
    apply (word_valid_ok 8 (if q then f64q_start else f64s_start) 256 0 8); try assumption; try lia.
    + unfold wf_w; tauto.
    + destruct q; vm_compute; discriminate.
    + rewrite read_word_whole by apply Hs. destruct q; exact Hv.
Qed.

Lemma contract_f32 q : contract (TFloat32 q).
Proof.
  simple_contract.
  - apply word_set_ok; try lia; try assumption. destruct q; vm_compute; discriminate.
  - destruct Hv as [Hs Hv].
    apply (word_valid_ok 4 (if q then f32q_start else f32s_start) 256 0 4); try assumption; try lia.
    + unfold wf_w; tauto.
    + destruct q; vm_compute; discriminate.
    + rewrite read_word_whole by apply Hs. destruct q; exact Hv.
Qed.

Lemma contract_poly p n a : wf (TPoly p n a) -> contract (TPoly p n a).
Proof.
  intros [Hp [_ Hn]]. pose proof (wbase_p_ge p Hp) as Hw. simple_contract.
  - apply word_set_ok; try lia; try assumption. unfold poly_start. lia.
  - destruct Hv as [Hs Hv]. apply (word_valid_ok p (poly_start p) 255 0 n); try assumption; try lia.
    + now apply wf_p_w.
    + unfold poly_start. lia.
    + unfold in_block, object_addr, poly_start in *. lia.
Qed.

Lemma contract_sv p d : wf (TStringView p d) -> contract (TStringView p d).
Proof.
  intros Hp. cbn [wf] in Hp. pose proof (wbase_p_ge p Hp) as Hw. simple_contract.
  - unfold sv_set, verify. destruct (N.ltb_spec l 255) as [_|]; [|lia].
    eexists; split; [reflexivity|]. split.
    + apply sized_write; [apply sized_write; [exact Hb|]|]; unfold sv_data_off, sv_size_off; destruct d; lia.
    + unfold word_get. destruct Hb as [Hlen Hb].
      rewrite read_write_disjoint.
      * rewrite read_write_word by (unfold sv_data_off; destruct d; lia).
        f_equal. apply wsub_wadd; unfold sv_start; lia.
      * rewrite write_word_length; unfold sv_data_off, sv_size_off; destruct d; lia.
      * unfold sv_data_off, sv_size_off; destruct d; lia.
  - destruct Hv as [Hs Hv].
    apply (word_valid_ok p (sv_start p) 255 (sv_data_off p d) (2 * p)); try assumption; try lia.
    + now apply wf_p_w.
    + unfold sv_data_off; destruct d; lia.
    + unfold sv_start. lia.
    + unfold in_block, object_addr, sv_start, sv_data_off in *. destruct d; lia.
Qed.

Lemma contract_uptr p : wf (TUniquePtr p) -> contract (TUniquePtr p).
Proof.
  intros Hp. cbn [wf] in Hp. pose proof (wbase_p_ge p Hp) as Hw. simple_contract.
  - apply word_set_ok; try lia; try assumption. unfold uptr_start. lia.
  - destruct Hv as [Hs Hv]. apply (word_valid_ok p (uptr_start p) 255 0 p); try assumption; try lia.
    + now apply wf_p_w.
    + unfold uptr_start. lia.
    + rewrite read_word_whole by apply Hs. unfold in_block, object_addr, uptr_start in *. lia.
Qed.

Lemma contract_mp32 : contract TMemPtr32.
Proof.
  simple_contract.
  - apply word_set_ok; try lia; try assumption. vm_compute; discriminate.
  - destruct Hv as [Hs Hv]. apply (word_valid_ok 4 memptr32_start 255 0 4); try assumption; try lia.
    + unfold wf_w; tauto.
    + vm_compute; discriminate.
    + rewrite read_word_whole by apply Hs. unfold in_block, memptr32_start.
      change (2 ^ 31) with 2147483648 in Hv. change (2 ^ 32) with 4294967296 in Hv. lia.
Qed.

Lemma contract_mp64 n : wf (TMemPtr64 n) -> contract (TMemPtr64 n).
Proof.
  intros [Hn _]. simple_contract.
  - apply word_set_ok; try lia; try assumption. vm_compute; discriminate.
  - destruct Hv as [Hs Hv]. apply (word_valid_ok 8 memptr64_start 255 0 n); try assumption; try lia.
    + unfold wf_w; tauto.
    + vm_compute; discriminate.
    + unfold in_block, memptr64_start.
      change (2 ^ 63) with 9223372036854775808 in Hv. change (2 ^ 64) with 18446744073709551616 in Hv. lia.
Qed.

Lemma contract_vector p : wf (TVector p) -> contract (TVector p).
Proof.
  intros Hp. cbn [wf] in Hp. pose proof (wbase_p_ge p Hp) as Hw. simple_contract.
  - apply word_set_ok; try lia; try assumption. unfold vec_start. lia.
  - destruct Hv as [Hs Hv]. apply (word_valid_ok p (vec_start p) 255 0 (3 * p)); try assumption; try lia.
    + now apply wf_p_w.
    + unfold vec_start. lia.
    + unfold in_block, object_addr, vec_start in *. lia.
Qed.

Lemma contract_optref p : wf (TOptRef p) -> contract (TOptRef p).
Proof.
  intros Hp. cbn [wf] in Hp. pose proof (wbase_p_ge p Hp) as Hw.
  pose proof (wbase_le_umax p (wf_p_w p Hp)) as Hu. simple_contract.
  - unfold optref_set. eexists; split; [reflexivity|]. split; [apply sized_write; [exact Hb|lia]|].
    unfold optref_get. destruct Hb as [Hlen Hb]. rewrite read_write_word by lia.
    unfold to_umax. rewrite (N.mod_small (l + 1) umax_base) by lia.
    rewrite N.mod_small by lia. rewrite wsub_ge by lia. f_equal. lia.
  - destruct Hv as [Hs Hv]. unfold optref_get. rewrite read_word_whole by apply Hs.
    eexists; split; [reflexivity|]. split; [|apply wsub_bound; lia].
    destruct Hv as [->|[H1 H2]].
    + vm_compute; discriminate.
    + rewrite wsub_ge by lia. lia.
Qed.

Lemma contract_pad n a o w : wf (TPadding n a o w) -> contract (TPadding n a o w).
Proof.
  intros [_ [Hw Ho]]. pose proof (wbase_le_umax w Hw) as Hu. pose proof (wbase_pos w) as Hpos.
  assert (wbase w - 1 <= padding_max w /\ padding_max w < umax_base) as [Hpm Hpm2].
  { unfold padding_max. destruct (Nat.ltb_spec w 4); split; unfold umax_base in *; lia. }
  constructor; cbn [max_level levels].
  - exact Hpm2.
  - exact Hpm.
  - intros l b Hl Hb. cbn [levels] in Hl. cbn [sizeof set_level get_level] in *.
    unfold padding_set, padding_get, verify. destruct (N.ltb_spec l (padding_max w)) as [_|]; [|lia].
    eexists; split; [reflexivity|]. split; [apply sized_write; [exact Hb|lia]|].
    destruct Hb as [Hlen Hb]. rewrite read_write_word by lia.
    unfold to_umax. rewrite (N.mod_small (l + 1) umax_base) by lia. rewrite N.mod_small by lia.
    rewrite wsub_ge by lia. f_equal. lia.
  - intros b _ [Hs Hv]. cbn [get_level max_level]. unfold padding_get. rewrite Hv.
    eexists; split; [reflexivity|]. change (wsub umax_base 0 1) with (umax_base - 1). lia.
Qed.

Lemma contract_enum w named : wf (TEnumRefl w named) -> contract (TEnumRefl w named).
Proof.
  intros [Hw Hn].
  assert (exists pr, pr = N.of_nat (enum_probe w) /\ pr <= 1024 /\ pr <= wbase w) as [pr [Epr [Hpr Hpw]]].
  { exists (N.of_nat (enum_probe w)). split; [reflexivity|].
    destruct Hw as [->|[->|[->| ->]]]; vm_compute; split; discriminate. }
  pose proof (wbase_le_umax w Hw) as Hu.
  assert (max_level (TEnumRefl w named) = if enum_start w named =? 0 then 0 else pr - enum_start w named) as Hmax
    by (cbn [max_level]; now rewrite Epr).
  constructor.
  - rewrite Hmax. destruct (_ =? _); unfold umax_base in *; lia.
  - cbn [levels]. lia.
  - intros l b Hl Hb. cbn [levels] in Hl. rewrite Hmax in Hl.
    cbn [sizeof set_level get_level] in *. unfold enum_set, enum_get, verify. rewrite Hmax.
    destruct (N.eqb_spec (enum_start w named) 0) as [|Hne]; [lia|].
    destruct (N.ltb_spec l (pr - enum_start w named)) as [_|]; [|lia].
    eexists; split; [reflexivity|]. split; [apply sized_write; [exact Hb|lia]|].
    destruct Hb as [Hlen Hb]. rewrite read_write_word by lia.
    unfold to_umax. rewrite (N.mod_small (l + _) umax_base) by lia. rewrite N.mod_small by lia.
    rewrite wsub_ge by lia. f_equal. lia.
  - intros b Hm [Hs Hv]. rewrite Hmax in *. cbn [get_level]. unfold enum_get.
    rewrite read_word_whole by apply Hs.
    destruct (N.eqb_spec (enum_start w named) 0) as [|Hne]; [lia|].
    eexists; split; [reflexivity|]. split; [|apply wsub_bound; lia].
    pose proof (flag_union_bound w named _ Hn Hv) as Hb.
    assert (1 <= enum_probe w <= 1024)%nat as Hprobe by lia.
    destruct (flag_union_outside named (enum_probe w) (le_decode b) Hprobe Hne Hv) as [H|H];
      unfold enum_start in *.
    + rewrite wsub_lt by lia. lia.
    + rewrite wsub_ge by lia. lia.
Qed.

Lemma contract_esent it s : wf (TEnumSent it s) -> contract (TEnumSent it s).
Proof.
  intros [Hw Hs]. pose proof (ibase_cases it Hw) as Hbase. simple_contract.
  - assert (l = 0) as -> by lia. unfold enum_sent_set, verify. cbn [N.eqb].
    eexists; split; [reflexivity|]. split; [split; [apply int_encode_length|apply int_encode_bytes]|].
    unfold enum_sent_get. rewrite int_decode_encode by assumption. unfold int_sub.
    rewrite Z.sub_diag. destruct (_ <? _)%nat; [reflexivity|].
    destruct (isg it) eqn:Eg; [|rewrite Z.mod_0_l; [reflexivity|pose proof (ibase_pos it); lia]].
    unfold in_ityb, imin, imax. rewrite Eg.
    replace (_ && _)%bool with true; [reflexivity|]. symmetry. lia.
  - destruct Hv as [Hsz [Hne Hr]]. unfold enum_sent_get.
    pose proof (int_decode_range it b Hw) as Hd. set (v := int_decode it b) in *.
    unfold int_sub. destruct (Nat.ltb_spec (iw it) 4) as [Hlt|Hge].
    + cbn [rmap]. eexists; split; [reflexivity|]. split; [|apply z_to_umax_bound].
      unfold in_ity, imin, imax in *. unfold z_to_umax, umax_base. destruct (isg it); lia.
    + destruct (isg it) eqn:Eg.
      * specialize (Hr eq_refl Hge). apply in_ityb_spec in Hr as Hr'. rewrite Hr'. cbn [rmap].
        eexists; split; [reflexivity|]. split; [|apply z_to_umax_bound].
        unfold in_ity, imin, imax in *. rewrite Eg in *. unfold z_to_umax, umax_base. lia.
      * cbn [rmap]. eexists; split; [reflexivity|]. split; [|apply z_to_umax_bound].
        unfold in_ity, imin, imax in *. rewrite Eg in *. unfold z_to_umax, umax_base.
        destruct Hbase as [[E1 E2]|[[E1 E2]|[[E1 E2]|[E1 E2]]]]; rewrite E2 in *; lia.
Qed.

(** Reading back start + l. *)
Lemma enum_range_back it s l : wf_ity it -> in_ity it s -> in_ity it (s + Z.of_N l) -> l < umax_base ->
  (isg it = true -> (4 <= iw it)%nat -> in_ity it (Z.of_N l)) ->
  enum_range_get it s (int_encode it (s + Z.of_N l)) = Ok l.
Proof.
  intros Hw Hs Hl Hlu Hr. unfold enum_range_get. rewrite int_decode_encode by assumption.
  replace (s + Z.of_N l - s)%Z with (Z.of_N l) by lia. unfold int_sub.
  replace (s + Z.of_N l - s)%Z with (Z.of_N l) by lia.
  assert (z_to_umax (Z.of_N l) = l) as Hz by (rewrite z_to_umax_small by lia; lia).
  destruct (Nat.ltb_spec (iw it) 4); [cbn [rmap]; now rewrite Hz|].
  destruct (isg it) eqn:Eg.
  - specialize (Hr eq_refl H). apply in_ityb_spec in Hr. rewrite Hr. cbn [rmap]. now rewrite Hz.
  - rewrite Z.mod_small; [cbn [rmap]; now rewrite Hz|].
    unfold in_ity, imin, imax in *. rewrite Eg in *. lia.
Qed.

(** Levels of values outside [s, s + m). *)
Lemma enum_range_outside it s m b : wf_ity it -> in_ity it s -> 
  (0 < m)%Z -> (s + m <= imax it + 1)%Z -> (m < Z.of_N umax_base)%Z ->
  sized (iw it) b -> ~ (s <= int_decode it b < s + m)%Z ->
  (isg it = true -> (4 <= iw it)%nat -> in_ity it (int_decode it b - s)) ->
  exists l, enum_range_get it s b = Ok l /\ Z.to_N m <= l /\ l < umax_base.
Proof.
  intros Hw Hs Hm Hms Hmu Hsz Ho Hr. unfold enum_range_get.
  pose proof (int_decode_range it b Hw) as Hd. set (v := int_decode it b) in *. clearbody v.
  pose proof (ibase_cases it Hw) as Hbase.
  unfold int_sub. destruct (Nat.ltb_spec (iw it) 4) as [Hlt|Hge].
  - cbn [rmap]. eexists; split; [reflexivity|]. split; [|apply z_to_umax_bound].
    unfold in_ity, imin, imax in *. unfold z_to_umax, umax_base in *.
    destruct Hbase as [[E1 E2]|[[E1 E2]|[[E1 E2]|[E1 E2]]]]; rewrite E2 in *; destruct (isg it); lia.
  - destruct (isg it) eqn:Eg.
    + specialize (Hr eq_refl Hge). apply in_ityb_spec in Hr as Hr'. rewrite Hr'. cbn [rmap].
      eexists; split; [reflexivity|]. split; [|apply z_to_umax_bound].
      unfold in_ity, imin, imax in *. rewrite Eg in *. unfold z_to_umax, umax_base in *.
      destruct Hbase as [[E1 E2]|[[E1 E2]|[[E1 E2]|[E1 E2]]]]; rewrite E2 in *; lia.
    + cbn [rmap]. eexists; split; [reflexivity|]. split; [|apply z_to_umax_bound].
      unfold in_ity, imin, imax in *. rewrite Eg in *. unfold z_to_umax, umax_base in *.
      destruct Hbase as [[E1 E2]|[[E1 E2]|[[E1 E2]|[E1 E2]]]]; rewrite E2 in *; lia.
Qed.

Lemma contract_estart it s : wf (TEnumStart it s) -> contract (TEnumStart it s).
Proof.
  intros [Hw Hs]. pose proof (ibase_cases it Hw) as Hbase.
  assert (enum_start_max it s = 0 \/
          (enum_start_max it s = Z.to_N (imax it - s + 1) /\ 0 < imax it - s + 1 < Z.of_N umax_base)%Z) as Hmax.
  { unfold enum_start_max, in_ity, imin, imax, z_to_umax, umax_base in *.
    destruct Hbase as [[E1 E2]|[[E1 E2]|[[E1 E2]|[E1 E2]]]]; rewrite E2 in *; destruct (isg it); lia. }
  constructor.
  - cbn [max_level]. apply z_to_umax_bound.
  - cbn [levels max_level]. destruct (isg it && (4 <=? iw it)%nat)%bool; lia.
  - intros l b Hl Hb. cbn [sizeof set_level get_level]. cbn [levels max_level] in Hl.
    assert (l < enum_start_max it s) as Hl'.
    { destruct (isg it && (4 <=? iw it)%nat)%bool; lia. }
    unfold enum_range_set, verify. destruct (N.ltb_spec l (enum_start_max it s)) as [_|]; [|lia].
    eexists; split; [reflexivity|]. split; [split; [apply int_encode_length|apply int_encode_bytes]|].
    apply enum_range_back; try assumption.
    + unfold in_ity in *. lia.
    + unfold umax_base in *; lia.
    + intros Eg Hge. rewrite Eg in Hl. cbn [andb] in Hl.
      destruct (Nat.leb_spec 4 (iw it)) as [_|]; [|lia].
      unfold in_ity, imin in *. rewrite Eg in *. unfold imax in *. rewrite Eg in *.
      destruct Hbase as [[E1 E2]|[[E1 E2]|[[E1 E2]|[E1 E2]]]]; rewrite E2 in *; lia.
  - intros b Hm Hv. cbn [max_level get_level valid] in *. destruct Hv as [Hsz [Hlt Hr]].
    destruct Hmax as [Hz|[Hz Hzr]]; [lia|]. rewrite Hz.
    apply enum_range_outside; try assumption; lia.
Qed.

Lemma contract_estartend it s e : wf (TEnumStartEnd it s e) -> contract (TEnumStartEnd it s e).
Proof.
  intros (Hw & Hs & He & Hse & Hov). pose proof (ibase_cases it Hw) as Hbase.
  assert (enum_start_end_max it s e = 0 \/
          (enum_start_end_max it s e = Z.to_N (e - s + 1) /\ 0 < e - s + 1 < Z.of_N umax_base)%Z) as Hmax.
  { unfold enum_start_end_max, in_ity, imin, imax, z_to_umax, umax_base in *.
    destruct Hbase as [[E1 E2]|[[E1 E2]|[[E1 E2]|[E1 E2]]]]; rewrite E1, E2 in *;
      cbn [Nat.ltb Nat.leb orb]; destruct (isg it); cbn [orb]; lia. }
  constructor.
  - cbn [max_level]. unfold enum_start_end_max. destruct (_ || _)%bool; apply z_to_umax_bound.
  - cbn [levels max_level]. lia.
  - intros l b Hl Hb. cbn [sizeof set_level get_level]. cbn [levels max_level] in Hl.
    unfold enum_range_set, verify. destruct (N.ltb_spec l (enum_start_end_max it s e)) as [_|]; [|lia].
    eexists; split; [reflexivity|]. split; [split; [apply int_encode_length|apply int_encode_bytes]|].
    apply enum_range_back; try assumption.
    + unfold in_ity in *. lia.
    + unfold umax_base in *; lia.
    + intros Eg Hge. specialize (Hov Eg Hge). unfold in_ity, imin in *. rewrite Eg in *.
      destruct Hbase as [[E1 E2]|[[E1 E2]|[[E1 E2]|[E1 E2]]]]; rewrite E2 in *; lia.
  - intros b Hm Hv. cbn [max_level get_level valid] in *. destruct Hv as [Hsz [Hlt Hr]].
    destruct Hmax as [Hz|[Hz Hzr]]; [lia|]. rewrite Hz.
    apply enum_range_outside; try assumption; unfold in_ity in *; lia.
Qed.

Lemma contract_string p lib : wf (TString p lib) -> contract (TString p lib).
Proof.
  intros Hp. cbn [wf] in Hp. pose proof (wbase_p_ge p Hp) as Hw.
  assert (Hm1 : (string_mark_offset p lib + p <= string_size p lib)%nat)
    by (destruct Hp as [->| ->]; destruct lib as [[]|[]|]; vm_compute; lia).
  assert (Hm2 : (string_size_offset p lib + p <= string_size p lib)%nat)
    by (destruct Hp as [->| ->]; destruct lib as [[]|[]|]; vm_compute; lia).
  assert (Hdis : (string_mark_offset p lib + p <= string_size_offset p lib \/
                  string_size_offset p lib + p <= string_mark_offset p lib)%nat)
    by (destruct Hp as [->| ->]; destruct lib as [[]|[]|]; vm_compute; lia).
  assert (Hmk : string_mark p lib < wbase p)
    by (destruct Hp as [->| ->]; destruct lib as [[]|[]|]; vm_compute; reflexivity).
  simple_contract.
  - unfold string_set, verify. destruct (N.ltb_spec l 255) as [_|]; [|lia].
    eexists; split; [reflexivity|].
    split; [apply sized_write; [apply sized_write; assumption|assumption]|].
    destruct Hb as [Hlen Hb].
    unfold string_get. rewrite read_write_disjoint by (rewrite ?write_word_length; lia).
    rewrite read_write_word by lia. rewrite N.mod_small by exact Hmk. rewrite N.eqb_refl.
    rewrite read_write_word by (rewrite write_word_length; lia). f_equal. apply N.mod_small. lia.
  - destruct Hv as [Hs Hv]. unfold string_get.
    destruct (N.eqb_spec (read_word (string_mark_offset p lib) p b) (string_mark p lib)) as [E|_]; [congruence|].
    eexists; split; [reflexivity|]. vm_compute. split; [discriminate|reflexivity].
Qed.

Lemma contract_senttr it s : wf (TSentTraits it s) -> contract (TSentTraits it s).
Proof.
  intros [Hw Hs]. simple_contract.
  - assert (l = 0) as -> by lia. unfold sent_traits_set, verify. cbn [N.eqb].
    eexists; split; [reflexivity|]. split; [split; [apply int_encode_length|apply int_encode_bytes]|].
    unfold sent_traits_get. rewrite int_decode_encode by assumption. now rewrite Z.eqb_refl.
  - destruct Hv as [Hsz Hne]. unfold sent_traits_get.
    destruct (Z.eqb_spec (int_decode it b) s); [contradiction|].
    eexists; split; [reflexivity|]. unfold umax_base; lia.
Qed.

Lemma sentinel_set_nth i vals l : l < N.of_nat (length vals) ->
  exists v, nth_error vals (N.to_nat l) = Some v /\ sentinel_set_impl i vals (i + l) = Ok v.
Proof.
  revert i l. induction vals as [|v vals IH]; intros i l Hl; cbn [length] in Hl; [lia|].
  cbn [sentinel_set_impl]. destruct (N.eqb_spec (i + l) i) as [E|E].
  - assert (l = 0) as -> by lia. exists v. split; reflexivity.
  - destruct (IH (i + 1) (l - 1) ltac:(lia)) as [v' [H1 H2]]. exists v'. split.
    + replace (N.to_nat l) with (S (N.to_nat (l - 1))) by lia. exact H1.
    + replace (i + l) with (i + 1 + (l - 1)) by lia. exact H2.
Qed.

Lemma sentinel_get_nth i vals l v : NoDup vals -> nth_error vals (N.to_nat l) = Some v ->
  sentinel_get_impl i vals v = i + l.
Proof.
  intros Hnd. revert i l. induction Hnd as [|x vals Hx Hnd IH]; intros i l Hn.
  - destruct (N.to_nat l); discriminate.
  - cbn [sentinel_get_impl]. destruct (Z.eqb_spec v x) as [->|Hne].
    + destruct (N.to_nat l) eqn:E; [lia|]. cbn in Hn. apply nth_error_In in Hn. contradiction.
    + destruct (N.to_nat l) as [|n] eqn:E; cbn in Hn; [congruence|].
      replace n with (N.to_nat (l - 1)) in Hn by lia. rewrite (IH _ _ Hn). lia.
Qed.

Lemma sentinel_get_notin i vals v : ~ In v vals -> sentinel_get_impl i vals v = umax_base - 1.
Proof.
  revert i. induction vals as [|x vals IH]; intros i H; cbn [sentinel_get_impl]; [reflexivity|].
  destruct (Z.eqb_spec v x) as [->|Hne]; [exfalso; apply H; now left|].
  apply IH. intros Hin. apply H. now right.
Qed.

Lemma contract_sentinel it vals : wf (TSentinel it vals) -> contract (TSentinel it vals).
Proof.
  intros (Hw & Hin & Hnd & Hlen). constructor; cbn [max_level levels].
  - exact Hlen.
  - lia.
  - intros l b Hl Hb. cbn [levels max_level] in Hl. cbn [sizeof set_level get_level] in *.
    unfold sentinel_set. destruct (sentinel_set_nth 0 vals l Hl) as [v [Hn Hset]].
    rewrite N.add_0_l in Hset. rewrite Hset. cbn [rmap].
    eexists; split; [reflexivity|]. split; [split; [apply int_encode_length|apply int_encode_bytes]|].
    unfold sentinel_get. rewrite int_decode_encode; [|exact Hw|].
    + f_equal. apply (sentinel_get_nth 0 vals l v Hnd Hn).
    + rewrite Forall_forall in Hin. apply Hin. eapply nth_error_In, Hn.
  - intros b _ [Hs Hv]. cbn [get_level max_level]. unfold sentinel_get.
    rewrite sentinel_get_notin by exact Hv. eexists; split; [reflexivity|]. lia.
Qed.

(** Members *)
Lemma sub_set_ok t off n l b : contract t -> (off + sizeof t <= n)%nat -> l < levels t -> sized n b ->
  exists b', sub_set (set_level t) off (sizeof t) l b = Ok b' /\ sized n b' /\
             sub_get (get_level t) off (sizeof t) b' = Ok l.
Proof.
  intros C Hoff Hl Hb. unfold sub_set, sub_get.
  destruct (c_set t C l (slice off (sizeof t) b) Hl) as [s [H1 [H2 H3]]].
  { apply (sized_slice off (sizeof t) n); assumption. }
  rewrite H1. cbn [rmap]. eexists; split; [reflexivity|]. split.
  - apply (sized_splice off (sizeof t)); assumption.
  - rewrite slice_splice_same; [exact H3|symmetry; apply H2|destruct Hb; lia].
Qed.

Lemma contract_complex t : contract t -> contract (TComplex t).
Proof.
  intros C. constructor; cbn [max_level levels].
  - apply C.
  - apply C.
  - intros l b Hl Hb. cbn [levels] in Hl. cbn [sizeof set_level get_level] in *.
    unfold complex_set, verify. pose proof (c_levels t C).
    destruct (N.ltb_spec l (max_level t)) as [_|]; [|lia].
    destruct (c_set t C l (repeat 0 (sizeof t)) Hl) as [s [H1 [H2 H3]]].
    { split; [apply repeat_length|]. apply Forall_forall. intros x Hx. apply repeat_spec in Hx. subst. lia. }
    rewrite H1. cbn [rmap]. eexists; split; [reflexivity|]. split.
    + apply (sized_splice 0 (sizeof t)); try assumption; lia.
    + unfold sub_get. rewrite slice_splice_same; [exact H3|symmetry; apply H2|lia].
  - intros b Hm (Hs & Hv & _). cbn [get_level max_level] in *. unfold sub_get. now apply (c_valid t C).
Qed.

Lemma contract_pair o1 t1 o2 t2 n a : (wf t1 -> contract t1) -> (wf t2 -> contract t2) ->
  wf (TPair o1 t1 o2 t2 n a) -> contract (TPair o1 t1 o2 t2 n a).
Proof.
  intros C1 C2 (_ & [Hw1 Ho1] & [Hw2 Ho2]). specialize (C1 Hw1). specialize (C2 Hw2).
  constructor; cbn [max_level levels].
  - destruct (_ <? _); [apply C1|apply C2].
  - destruct (_ <? _); [apply C1|apply C2].
  - intros l b Hl Hb. cbn [levels] in Hl. cbn [sizeof set_level get_level] in *.
    destruct (_ <? _); now apply sub_set_ok.
  - intros b Hm (Hs & Hv1 & Hv2). cbn [get_level max_level] in *. unfold sub_get.
    destruct (max_level t2 <? max_level t1); [now apply (c_valid t1 C1)|now apply (c_valid t2 C2)].
Qed.

(** Tuples: the fields as a list of well-formed, contained, valid members. *)
Lemma wf_tuple fs n a : wf (TTuple fs n a) <->
  wf_layout n a /\ Forall (fun f => wf (snd f) /\ (fst f + sizeof (snd f) <= n)%nat) fs.
Proof.
  cbn [wf]. split; intros [H1 H2]; (split; [exact H1|]).
  - induction fs as [|[o ft] fs IH]; constructor; [apply H2|apply IH, H2].
  - induction fs as [|[o ft] fs IH]; [exact I|]. inversion H2; subst. split; [assumption|now apply IH].
Qed.

Lemma valid_tuple fs n a b : valid (TTuple fs n a) b <->
  sized n b /\ Forall (fun f => valid (snd f) (slice (fst f) (sizeof (snd f)) b)) fs.
Proof.
  cbn [valid]. split; intros [H1 H2]; (split; [exact H1|]).
  - induction fs as [|[o ft] fs IH]; constructor; [apply H2|apply IH, H2].
  - induction fs as [|[o ft] fs IH]; [exact I|]. inversion H2; subst. split; [assumption|now apply IH].
Qed.

Lemma nth_map_Some {A B} (f : A -> B) l i x d : nth_error l i = Some x -> nth i (map f l) d = f x.
Proof. intros H. apply nth_error_nth. now apply map_nth_error. Qed.

Lemma nth_error_dec {A} (l : list A) i : {x | nth_error l i = Some x} + {(length l <= i)%nat}.
Proof.
  destruct (nth_error l i) as [x|] eqn:E; [left; now exists x|right]. now apply nth_error_None.
Qed.

Lemma get_tuple fs n a b o ft :
  nth_error fs (index_of_max (map (fun f => max_level (snd f)) fs)) = Some (o, ft) ->
  get_level (TTuple fs n a) b = sub_get (get_level ft) o (sizeof ft) b.
Proof.
  intros H. cbn [get_level].
  rewrite (nth_map_Some (fun '(o, ft) => sub_get (get_level ft) o (sizeof ft)) fs _ (o, ft) no_get H). reflexivity.
Qed.
Lemma set_tuple fs n a l b o ft :
  nth_error fs (index_of_max (map (fun f => max_level (snd f)) fs)) = Some (o, ft) ->
  set_level (TTuple fs n a) l b = sub_set (set_level ft) o (sizeof ft) l b.
Proof.
  intros H. cbn [set_level].
  rewrite (nth_map_Some (fun '(o, ft) => sub_set (set_level ft) o (sizeof ft)) fs _ (o, ft) no_set H). reflexivity.
Qed.
Lemma max_tuple fs n a o ft :
  nth_error fs (index_of_max (map (fun f => max_level (snd f)) fs)) = Some (o, ft) ->
  max_level (TTuple fs n a) = max_level ft.
Proof.
  intros H. cbn [max_level]. unfold find_max_level.
  now rewrite (nth_map_Some (fun f => max_level (snd f)) fs _ (o, ft) 0 H).
Qed.
Lemma levels_tuple fs n a o ft :
  nth_error fs (index_of_max (map (fun f => max_level (snd f)) fs)) = Some (o, ft) ->
  levels (TTuple fs n a) = levels ft.
Proof.
  intros H. cbn [levels]. now rewrite (nth_map_Some (fun f => levels (snd f)) fs _ (o, ft) 0 H).
Qed.

Lemma contract_tuple fs n a : Forall (fun f => wf (snd f) -> contract (snd f)) fs ->
  wf (TTuple fs n a) -> contract (TTuple fs n a).
Proof.
  intros HC Hwf. apply wf_tuple in Hwf as [_ Hwf].
  destruct (nth_error_dec fs (index_of_max (map (fun f => max_level (snd f)) fs))) as [[[o ft] E]|Hge].
  - assert (wf ft /\ (o + sizeof ft <= n)%nat) as [Hw Ho].
    { rewrite Forall_forall in Hwf. apply (Hwf (o, ft)). eapply nth_error_In, E. }
    assert (contract ft) as C.
    { rewrite Forall_forall in HC. apply (HC (o, ft)); [eapply nth_error_In, E|exact Hw]. }
    pose proof (max_tuple fs n a o ft E) as Hmax. pose proof (levels_tuple fs n a o ft E) as Hlev.
    constructor.
    + rewrite Hmax. apply C.
    + rewrite Hmax, Hlev. apply C.
    + intros l b Hl Hb. rewrite Hlev in Hl. cbn [sizeof] in *.
      rewrite (set_tuple fs n a l b o ft E).
      destruct (sub_set_ok ft o n l b C Ho Hl Hb) as [b' [H1 [H2 H3]]].
      exists b'. rewrite (get_tuple fs n a b' o ft E). auto.
    + intros b Hm Hv. rewrite Hmax in *. apply valid_tuple in Hv as [Hs Hv].
      rewrite (get_tuple fs n a b o ft E). unfold sub_get. apply (c_valid ft C); [exact Hm|].
      rewrite Forall_forall in Hv. apply (Hv (o, ft)). eapply nth_error_In, E.
  - assert (max_level (TTuple fs n a) = 0) as Hmax.
    { cbn [max_level]. unfold find_max_level. apply nth_overflow. now rewrite map_length. }
    assert (levels (TTuple fs n a) = 0) as Hlev.
    { cbn [levels]. apply nth_overflow. now rewrite map_length. }
    constructor.
    + rewrite Hmax. reflexivity.
    + rewrite Hmax, Hlev. lia.
    + intros l b Hl. rewrite Hlev in Hl. lia.
    + intros b Hm. rewrite Hmax in Hm. lia.
Qed.

Lemma contract_array n t : contract t -> contract (TArray n t).
Proof.
  intros C. destruct (Nat.eqb_spec n 0) as [->|Hn].
  - constructor; cbn [max_level levels Nat.eqb]; try lia; [reflexivity| |].
    + intros l b Hl. cbn [levels Nat.eqb] in Hl. lia.
    + intros b Hm. cbn [max_level Nat.eqb] in Hm. lia.
  - assert ((n =? 0)%nat = false) as E by (now apply Nat.eqb_neq).
    constructor; cbn [max_level levels]; rewrite ?E.
    + apply C.
    + apply C.
    + intros l b Hl Hb. cbn [levels sizeof set_level get_level] in *. rewrite E in *.
      apply sub_set_ok; try assumption. nia.
    + intros b Hm Hv. cbn [max_level get_level valid] in *. rewrite E in *. destruct Hv as [Hs Hv].
      unfold sub_get. apply (c_valid t C); [exact Hm|]. apply (Hv 0%nat). lia.
Qed.

Lemma contract_member o t n a : (wf t -> contract t) -> wf (TMember o t n a) -> contract (TMember o t n a).
Proof.
  intros C (_ & Hw & Ho). specialize (C Hw). constructor; cbn [max_level levels].
  - apply C.
  - apply C.
  - intros l b Hl Hb. cbn [levels sizeof set_level get_level] in *. now apply sub_set_ok.
  - intros b Hm [Hs Hv]. cbn [max_level get_level] in *. unfold sub_get. now apply (c_valid t C).
Qed.

Lemma contract_enforce t : contract t -> contract (TEnforce t).
Proof.
  intros C. constructor; cbn [max_level levels].
  - apply C.
  - apply C.
  - exact (c_set t C).
  - exact (c_valid t C).
Qed.

Lemma round_up_ge n al : (0 < al)%nat -> (n <= round_up n al)%nat.
Proof.
  intros H. unfold round_up. pose proof (Nat.div_mod (n + al - 1) al ltac:(lia)) as E.
  pose proof (Nat.mod_upper_bound (n + al - 1) al ltac:(lia)). nia.
Qed.

Lemma wf_align t : wf t -> (0 < alignof t)%nat.
Proof.
  induction t using ty_ind'; cbn [wf alignof]; unfold wf_layout, wf_p, wf_w, wf_ity; intros; try lia; try tauto.
Qed.

Lemma sizeof_flagged t : wf t -> max_level t = 0 -> (sizeof t + 1 <= sizeof (TOption t))%nat.
Proof.
  intros Hw H. cbn [sizeof]. rewrite H. cbn [N.eqb]. apply round_up_ge, wf_align, Hw.
Qed.

Lemma contract_option t : (wf t -> contract t) -> wf (TOption t) -> contract (TOption t).
Proof.
  intros C [Hw Hl1]. specialize (C Hw). pose proof (c_max t C) as Cm. pose proof (c_levels t C) as Cl.
  destruct (N.eqb_spec (max_level t) 0) as [Hz|Hnz].
  - pose proof (sizeof_flagged t Hw Hz) as Hsz. constructor; cbn [max_level levels]; rewrite ?Hz; cbn [N.eqb].
    + reflexivity.
    + lia.
    + intros l b Hl Hb. cbn [levels] in Hl. rewrite Hz in Hl. cbn [N.eqb] in Hl.
      cbn [set_level get_level]. rewrite Hz. cbn [N.eqb]. unfold bool_set, bool_get.
      apply word_set_ok; try assumption. vm_compute; discriminate.
    + intros b _ [Hs Hv]. cbn [get_level max_level]. rewrite Hz. cbn [N.eqb].
      apply (word_valid_ok 1 2 254 (sizeof t) (sizeof (TOption t))); try assumption; try lia.
      * now left.
      * vm_compute; discriminate.
      * unfold opt_has_value, read_bool in Hv. rewrite Hz in Hv. cbn [N.eqb] in Hv.
        unfold in_block. intros [Ha Hb].
        destruct (N.eqb_spec (read_word (sizeof t) 1 b) 0); [lia|].
        destruct (N.eqb_spec (read_word (sizeof t) 1 b) 1); [lia|].
        destruct Hv as [Hv|[Hv _]]; discriminate.
  - assert ((max_level t =? 0) = false) as E by (now apply N.eqb_neq).
    constructor; cbn [max_level levels]; rewrite ?E.
    + lia.
    + lia.
    + intros l b Hl Hb. cbn [levels sizeof] in *. rewrite E in *. cbn [set_level get_level]. rewrite E.
      unfold avail_set, to_umax. rewrite N.mod_small by lia.
      destruct (c_set t C (l + 1) b ltac:(lia) Hb) as [b' [H1 [H2 H3]]].
      exists b'. split; [exact H1|]. split; [exact H2|]. unfold avail_get. rewrite H3. cbn [rmap].
      rewrite wsub_ge by lia. f_equal. lia.
    + intros b Hm [Hs Hv]. cbn [max_level sizeof get_level] in *. rewrite E in *.
      unfold opt_has_value in Hv. rewrite E in Hv. unfold avail_get.
      assert (slice 0 (sizeof t) b = b) as Hsl by (apply slice_all; symmetry; apply Hs).
      destruct Hv as [Hv|[_ Hv]].
      * destruct (get_level t b) as [l| |] eqn:El; cbn [rmap] in *; try discriminate.
        injection Hv as Hv. apply negb_false_iff, N.eqb_eq in Hv as ->.
        eexists; split; [reflexivity|]. change (wsub umax_base 0 1) with (umax_base - 1). lia.
      * rewrite Hsl in Hv. destruct (c_valid t C b ltac:(lia) Hv) as [l [H1 [H2 H3]]].
        rewrite H1. cbn [rmap]. eexists; split; [reflexivity|]. rewrite wsub_ge by lia. lia.
Qed.

Lemma contract_custom n a m g s i : wf (TCustom n a m g s i) -> contract (TCustom n a m g s i).
Proof.
  intros (_ & Hm & Hs & Hv & _). constructor; cbn [max_level levels].
  - exact Hm.
  - lia.
  - intros l b Hl Hb. cbn [sizeof set_level get_level levels max_level] in *. now apply Hs.
  - intros b H0 [Hb Hi]. cbn [get_level max_level] in *. now apply Hv.
Qed.

Theorem contract_all t : wf t -> contract t.
Proof.
  induction t using ty_ind'; intros Hwf.
  - now apply contract_opaque.
  - apply contract_bool.
  - now apply contract_refwrap.
  - apply contract_ptr64.
  - apply contract_ptr32.
  - apply contract_f64.
  - apply contract_f32.
  - now apply contract_poly.
  - now apply contract_sv.
  - now apply contract_uptr.
  - apply contract_mp32.
  - now apply contract_mp64.
  - now apply contract_pad.
  - now apply contract_enum.
  - now apply contract_esent.
  - now apply contract_estart.
  - now apply contract_estartend.
  - now apply contract_string.
  - now apply contract_vector.
  - now apply contract_senttr.
  - now apply contract_sentinel.
  - apply contract_complex, IHt, Hwf.
  - now apply contract_pair.
  - now apply contract_tuple.
  - apply contract_array, IHt, Hwf.
  - now apply contract_member.
  - apply contract_enforce, IHt, Hwf.
  - now apply contract_option.
  - now apply contract_optref.
  - now apply contract_custom.
Qed.
