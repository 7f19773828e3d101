(** Witnesses against properties that the code does not have in full. *)
From Coq Require Import ZArith NArith List Bool Lia ZifyBool ZifyNat ZifyN.
From Verif Require Import Outcome Words WordsFacts Ints IntsFacts Types OptBytes TypesSpec EnumFacts TypesFacts
  OptBytesFacts CustomTraits TraitFacts.
Import ListNotations.
Open Scope N_scope.

Definition bytes_ok (n : nat) (b : bytes) : bool := ((length b =? n)%nat && forallb (fun x => x <? 256) b)%bool.
Lemma bytes_ok_sized n b : bytes_ok n b = true -> sized n b.
Proof.
  unfold bytes_ok, sized, is_bytes. rewrite andb_true_iff, Nat.eqb_eq, forallb_forall. intros [H1 H2].
  split; [exact H1|]. apply Forall_forall. intros x Hx. apply N.ltb_lt. now apply H2.
Qed.

(** struct { uint32_t y; uint8_t PADDING{}; }  (8 bytes, PADDING at 4). *)
Definition padded8 : ty := TPadding 8 4 4 1.
Definition i32 : ity := {| iw := 4; isg := true |}.
Definition u64 : ity := {| iw := 8; isg := false |}.
Definition i64 : ity := {| iw := 8; isg := true |}.
Definition u8 : ity := {| iw := 1; isg := false |}.

Lemma padded8_level_lost :
  wf padded8 /\ 255 < max_level padded8 /\
  exists b b' l, sized 8 b /\ set_level padded8 255 b = Ok b' /\ get_level padded8 b' = Ok l /\ l <> 255.
Proof.
  split; [cbn; unfold wf_layout, wf_w; repeat split; try lia; exists 2%nat; reflexivity|].
  split; [reflexivity|].
  exists (repeat 0 8). do 2 eexists. split; [apply bytes_ok_sized; reflexivity|].
  split; [vm_compute; reflexivity|]. split; [vm_compute; reflexivity|discriminate].
Qed.

(** 256 nested options around it: the outermost one cannot be default-constructed. *)
Lemma padded8_deep_verify :
  sizeof (nest 256 padded8) = sizeof padded8 /\
  opt_default (nest 255 padded8) (repeat 0 8) = Verify.
Proof. split; vm_compute; reflexivity. Qed.

(** enum class E : int { SENTINEL = -1 };  the value INT_MAX *)
Lemma enum_sentinel_overflow :
  wf (TEnumSent i32 (-1)) /\ in_ity i32 2147483647 /\
  opt_has_value (TEnumSent i32 (-1)) (int_encode i32 2147483647) = UB.
Proof. split; [split; [unfold wf_ity; cbn; auto|vm_compute; split; congruence]|]. split; [vm_compute; split; congruence|vm_compute; reflexivity]. Qed.

(** enum class E : int { SENTINEL_START = -1 };  level 2^31 is advertised, but reading it overflows *)
Lemma enum_start_overflow :
  wf (TEnumStart i32 (-1)) /\ 2147483648 < max_level (TEnumStart i32 (-1)) /\
  exists b', set_level (TEnumStart i32 (-1)) 2147483648 (repeat 0 4) = Ok b' /\
             get_level (TEnumStart i32 (-1)) b' = UB.
Proof.
  split; [split; [unfold wf_ity; cbn; auto|vm_compute; split; congruence]|]. split; [reflexivity|].
  exists [255; 255; 255; 127]. split; vm_compute; reflexivity.
Qed.

(** enum class E : uint64_t { SENTINEL_START = 0 };  the level count wraps to 0 *)
Lemma enum_start_wraps :
  wf (TEnumStart u64 0) /\ max_level (TEnumStart u64 0) = 0 /\
  max_level (TEnumStart i64 (imin i64)) = 0.
Proof. split; [split; [unfold wf_ity; cbn; auto|vm_compute; split; congruence]|]. split; reflexivity. Qed.

(** opt::sentinel<std::uint8_t, 5, 5> *)
Lemma sentinel_duplicate :
  exists b', 1 < max_level (TSentinel u8 [5; 5]%Z) /\
  set_level (TSentinel u8 [5; 5]%Z) 1 [0] = Ok b' /\ get_level (TSentinel u8 [5; 5]%Z) b' = Ok 0.
Proof. exists [5]. split; [reflexivity|]. split; vm_compute; reflexivity. Qed.

(** sentinel_f with two constants *)
Lemma sentinel_f_two V n compare setv v1 v2 b :
  get_level (sf_type V n 1 compare setv [v1; v2]) b = UB.
Proof. reflexivity. Qed.

(** Assigning a reserved value through operator* silently empties the option. *)
Lemma put_empties :
  exists t b v b', wf (TOption t) /\ valid (TOption t) b /\ opt_has_value t b = Ok true /\ sized (sizeof t) v /\
    opt_put t v b = Ok b' /\ opt_has_value t b' = Ok false.
Proof.
  exists (TSentinel u8 [255]%Z), [7], [255], [255].
  split; [|split; [|split; [|split; [|split]]]]; try reflexivity.
  - cbn [wf max_level levels length N.of_nat]. split.
    + split; [unfold wf_ity; auto|]. split; [|split; [|reflexivity]].
      * constructor; [vm_compute; split; congruence|constructor].
      * constructor; [intros []|constructor].
    + right. vm_compute. congruence.
  - cbn [valid]. split; [apply bytes_ok_sized; reflexivity|]. right. split; [reflexivity|].
    split; [apply bytes_ok_sized; reflexivity|]. intros [H|[]]. discriminate.
  - apply bytes_ok_sized. reflexivity.
Qed.

(** Documentation rows that disagree with the code. *)
Lemma doc_string_view_off_by_one :
  exists b, sized 16 b /\ reserved (TStringView 8 true) b /\ read_word 0 8 b = wbase 8 - 32186.
Proof.
  exists (le_encode 8 (wbase 8 - 32186) ++ le_encode 8 0). split; [apply bytes_ok_sized; vm_compute; reflexivity|].
  split; [eexists; split; [vm_compute; reflexivity|reflexivity]|vm_compute; reflexivity].
Qed.
Lemma doc_reference_256 :
  max_level (TOptRef 8) = 256 /\ exists b, sized 8 b /\ reserved (TOptRef 8) b /\ le_decode b = 256.
Proof.
  split; [reflexivity|]. exists (le_encode 8 256). split; [apply bytes_ok_sized; vm_compute; reflexivity|].
  split; [eexists; split; [vm_compute; reflexivity|reflexivity]|vm_compute; reflexivity].
Qed.
Lemma doc_vector_data : exists b, sized 24 b /\ reserved (TVector 8) b /\ read_word 0 8 b <> 1.
Proof.
  exists (le_encode 8 (vec_start 8) ++ repeat 0 16). split; [apply bytes_ok_sized; vm_compute; reflexivity|].
  split; [eexists; split; [vm_compute; reflexivity|reflexivity]|vm_compute; congruence].
Qed.
