(** What calls read and write; the order of calls of different threads does not matter. *)
From Coq Require Import ZArith NArith List Bool Lia ZifyBool ZifyNat ZifyN.
From Verif Require Import Outcome Words WordsFacts Ints Types OptBytes OptBytesFacts TypesSpec EnumFacts TypesFacts FrameFacts
  Lifetime History ByteClass ByteProg ByteProgSpec ByteProgFacts AliasFacts FindingsFacts Threads ThreadsSpec.
Import ListNotations.
Open Scope nat_scope.
Open Scope res_scope.

(** * Regions *)

Lemma alike_app r s m m' : alike (r ++ s) m m' <-> alike r m m' /\ alike s m m'.
Proof.
  split.
  - intros H. split; intros o n Hin; apply H; apply in_or_app; auto.
  - intros [H1 H2] o n Hin. apply in_app_or in Hin. destruct Hin; auto.
Qed.

Lemma alike_incl r s m m' : incl r s -> alike s m m' -> alike r m m'.
Proof. intros Hi H o n Hin. apply H, Hi, Hin. Qed.

Lemma alike_slice o l r m m' : (forall a n, In (a, n) r -> a + n <= l) ->
  alike (moved o r) m m' -> alike r (slice o l m) (slice o l m').
Proof.
  intros Hr H a n Hin. rewrite !slice_slice by (apply Hr; exact Hin). apply H.
  unfold moved. apply in_map_iff. exists (a, n). auto.
Qed.

Lemma alike_sub o l a n m m' : slice o l m = slice o l m' -> a + n <= l -> slice (o + a) n m = slice (o + a) n m'.
Proof. intros H L. rewrite <- !(slice_slice o l) by exact L. now rewrite H. Qed.

Lemma moved_moved a b r : moved a (moved b r) = moved (a + b) r.
Proof. unfold moved. rewrite map_map. apply map_ext. intros [o n]. f_equal. lia. Qed.
Lemma moved_0 r : moved 0 r = r.
Proof. apply map_shift_0. Qed.
Lemma moved_app o r s : moved o (r ++ s) = moved o r ++ moved o s.
Proof. apply map_app. Qed.

Lemma touched_in t : forall x y, wf t -> In (x, y) (touched t) -> x + y <= sizeof t.
Proof.
  induction t using ty_ind'; intros x y Hw Hi; cbn [touched wf sizeof] in *; cbn [In] in Hi;
    try (destruct Hi as [[= <- <-]|[]]; lia); try (now destruct Hi).
  - destruct Hi as [[= <- <-]|[[= <- <-]|[]]]; lia.
  - destruct Hi as [[= <- <-]|[[= <- <-]|[]]]; destruct Hw as [-> | ->]; destruct l as [[]|[]|]; cbn; lia.
  - destruct Hw as (_ & [Hw1 Ho1] & [Hw2 Ho2]). destruct (max_level t2 <? max_level t1)%N;
      apply in_map_iff in Hi; destruct Hi as ([a' n'] & [= <- <-] & Hin).
    + specialize (IHt1 _ _ Hw1 Hin). lia.
    + specialize (IHt2 _ _ Hw2 Hin). lia.
  - apply wf_tuple in Hw. destruct Hw as [_ Hw].
    set (i := index_of_max (map (fun f => max_level (snd f)) fs)) in *.
    destruct (nth_error_dec fs i) as [[[o ft] Hn]|Hn].
    + rewrite (nth_map_Some _ fs i _ _ Hn) in Hi.
      assert (In (o, ft) fs) as Hin by (eapply nth_error_In; eauto).
      rewrite Forall_forall in H, Hw. pose proof (H _ Hin) as IH. pose proof (Hw _ Hin) as [Hw1 Hw2]. cbn [snd fst] in *.
      apply in_map_iff in Hi. destruct Hi as ([a' n'] & [= <- <-] & Hi). specialize (IH _ _ Hw1 Hi). lia.
    + rewrite nth_overflow in Hi by (now rewrite map_length). destruct Hi.
  - destruct (Nat.eqb_spec n 0) as [->|Hn]; [destruct Hi|]. specialize (IHt _ _ Hw Hi). destruct n; lia.
  - destruct Hw as (_ & Hw & Ho). apply in_map_iff in Hi. destruct Hi as ([a' n'] & [= <- <-] & Hi).
    specialize (IHt _ _ Hw Hi). lia.
  - destruct Hw as [Hw _]. eauto.
  - destruct Hw as [Hw _]. pose proof (option_size_ge t Hw) as G. pose proof (sizeof_flagged t Hw) as F. cbn [sizeof] in *.
    destruct (N.eqb_spec (max_level t) 0) as [E|E].
    + destruct Hi as [[= <- <-]|[]]. now apply F.
    + specialize (IHt _ _ Hw Hi). lia.
Qed.

(** The level of an object depends on these bytes only. *)
Lemma get_level_alike t : forall b b', wf t -> length b = sizeof t -> length b' = sizeof t ->
  alike (touched t) b b' -> get_level t b = get_level t b'.
Proof.
  assert (forall t o b b' l, wf t -> alike (moved o (touched t)) b b' -> o + sizeof t <= l -> length b = l -> length b' = l ->
    alike (touched t) (slice o (sizeof t) b) (slice o (sizeof t) b') /\ length (slice o (sizeof t) b) = sizeof t /\
    length (slice o (sizeof t) b') = sizeof t) as Sub.
  { intros t' o b b' l Hw H L1 L2 L3. split; [|rewrite !slice_length by lia; auto].
    apply alike_slice; [|exact H]. intros a n. now apply touched_in. }
  induction t using ty_ind'; intros b b' Hw Hb Hb' Ha; cbn [touched wf sizeof get_level] in *;
    try (unfold bool_get, word_get, padding_get, enum_get, optref_get, read_word; rewrite (Ha _ _ (or_introl eq_refl)); reflexivity);
    try (assert (b = b') as ->; [|reflexivity];
         pose proof (Ha _ _ (or_introl eq_refl)) as E; rewrite !slice_all in E by congruence; exact E);
    try reflexivity.
  - unfold word_get, read_word, sv_data_off. destruct d; [now rewrite (Ha _ _ (or_introl eq_refl))|].
    now rewrite (Ha _ _ (or_intror (or_introl eq_refl))).
  - unfold string_get, read_word. now rewrite (Ha _ _ (or_introl eq_refl)), (Ha _ _ (or_intror (or_introl eq_refl))).
  - unfold sub_get. now rewrite (Ha _ _ (or_introl eq_refl)).
  - destruct Hw as (_ & [Hw1 Ho1] & [Hw2 Ho2]). unfold sub_get. destruct (max_level t2 <? max_level t1)%N.
    + destruct (Sub t1 o1 b b' n Hw1 Ha Ho1 Hb Hb') as (A & B & C). now apply IHt1.
    + destruct (Sub t2 o2 b b' n Hw2 Ha Ho2 Hb Hb') as (A & B & C). now apply IHt2.
  - apply wf_tuple in Hw. destruct Hw as [_ Hw].
    set (i := index_of_max (map (fun f => max_level (snd f)) fs)) in *.
    destruct (nth_error_dec fs i) as [[[o ft] Hn]|Hn].
    + rewrite (nth_map_Some _ fs i _ _ Hn). rewrite (nth_map_Some _ fs i _ _ Hn) in Ha.
      assert (In (o, ft) fs) as Hin by (eapply nth_error_In; eauto).
      rewrite Forall_forall in H, Hw. pose proof (H _ Hin) as IH. pose proof (Hw _ Hin) as [Hw1 Hw2]. cbn [snd fst] in *.
      unfold sub_get. destruct (Sub ft o b b' n Hw1 Ha Hw2 Hb Hb') as (A & B & C). now apply IH.
    + rewrite !nth_overflow by (now rewrite map_length). reflexivity.
  - destruct (Nat.eqb_spec n 0) as [->|Hn]; [reflexivity|]. unfold sub_get.
    destruct (Sub t 0 b b' (n * sizeof t) Hw) as (A & B & C); [now rewrite moved_0| |assumption..|now apply IHt]. destruct n; lia.
  - destruct Hw as (_ & Hw & Ho). unfold sub_get. destruct (Sub t o b b' n Hw Ha Ho Hb Hb') as (A & B & C). now apply IHt.
  - destruct Hw as [Hw _]. now apply IHt.
  - destruct Hw as [Hw _]. destruct (max_level t =? 0)%N.
    + unfold bool_get, word_get, read_word. now rewrite (Ha _ _ (or_introl eq_refl)).
    + unfold avail_get. now rewrite (IHt b b').
Qed.

Lemma has_value_alike t b b' : wf (TOption t) -> length b = sizeof (TOption t) -> length b' = sizeof (TOption t) ->
  alike (touched (TOption t)) b b' -> opt_has_value t b = opt_has_value t b'.
Proof.
  intros [Hw _] Hb Hb' Ha. unfold opt_has_value. cbn [touched] in Ha. destruct (N.eqb_spec (max_level t) 0) as [E|E].
  - unfold read_bool, read_word. now rewrite (Ha _ _ (or_introl eq_refl)).
  - rewrite option_size_traits in Hb, Hb' by exact E. now rewrite (get_level_alike t b b').
Qed.

(** * Sizes *)

Section Sizes.
Context (t : ty) (Hw : wf (TOption t)).
Notation N := (sizeof (TOption t)).

Lemma default_size b b' : length b = N -> opt_default t b = Ok b' -> length b' = N.
Proof. intros Hb E. destruct (opt_default_frame t b b' Hw Hb E) as [L _]. congruence. Qed.

Lemma construct_size v b b' : length v = sizeof t -> length b = N -> opt_construct t v b = Ok b' -> length b' = N.
Proof.
  intros Hv Hb. pose proof (option_size_ge t (proj1 Hw)) as G. unfold opt_construct.
  assert (length (splice 0 v b) = N) as L by (rewrite splice_length; lia).
  destruct (max_level t =? 0)%N eqn:E.
  - intros [= <-]. unfold write_bool. pose proof (sizeof_flagged t (proj1 Hw) ltac:(lia)). rewrite write_word_length; lia.
  - destruct (opt_has_value t (splice 0 v b)) as [h| |]; try discriminate. cbn [rbind]. unfold verify. destruct h; [|discriminate].
    intros [= <-]. exact L.
Qed.

Lemma reset_size td b b' : length b = N -> opt_reset td t b = Ok b' -> length b' = N.
Proof. intros Hb E. destruct (opt_reset_frame td t b b' Hw Hb E) as [L _]. congruence. Qed.

Lemma put_size v b : length v = sizeof t -> length b = N -> length (splice 0 v b) = N.
Proof. intros Hv Hb. pose proof (option_size_ge t (proj1 Hw)) as G. rewrite splice_length; lia. Qed.

Lemma part_size b : length b = N -> length (slice 0 (sizeof t) b) = sizeof t.
Proof. intros Hb. pose proof (option_size_ge t (proj1 Hw)) as G. rewrite slice_length; lia. Qed.

Ltac go :=
  repeat match goal with
  | |- context [opt_has_value ?t ?b] => destruct (opt_has_value t b) as [[]| |]; cbn [rbind verify negb andb]; try discriminate
  | |- context [rbind (opt_reset ?td ?t ?b) _] =>
      let E := fresh "E" in destruct (opt_reset td t b) eqn:E; cbn [rbind]; try discriminate; apply reset_size in E; [|assumption]
  | |- context [rbind (opt_default ?t ?b) _] =>
      let E := fresh "E" in destruct (opt_default t b) eqn:E; cbn [rbind]; try discriminate; apply default_size in E; [|assumption]
  | |- context [rbind (opt_construct ?t ?v ?b) _] =>
      let E := fresh "E" in destruct (opt_construct t v b) eqn:E; cbn [rbind]; try discriminate; apply construct_size in E; [|auto using part_size|assumption]
  end.

Lemma emplace_size td v b b' : length v = sizeof t -> length b = N -> opt_emplace td t v b = Ok b' -> length b' = N.
Proof. intros Hv Hb. unfold opt_emplace. go. intros H. eapply construct_size; eauto. Qed.

Lemma try_emplace_size v b b' : length v = sizeof t -> length b = N -> opt_try_emplace t v b = Ok b' -> length b' = N.
Proof. intros Hv Hb. unfold opt_try_emplace. go; [congruence|]. intros H. eapply construct_size; eauto. Qed.

Lemma assign_value_size sc v b b' : length v = sizeof t -> length b = N -> opt_assign_value sc t v b = Ok b' -> length b' = N.
Proof.
  intros Hv Hb. unfold opt_assign_value. destruct sc; [intros H; eapply construct_size; eauto|].
  go; try (intros H; eapply construct_size; eauto; fail). intros [= <-]. now apply put_size.
Qed.

Lemma copy_size c b b' : length c = N -> length b = N -> opt_copy t c b = Ok b' -> length b' = N.
Proof.
  intros Hc Hb. unfold opt_copy. destruct (opt_default t b) as [d| |] eqn:E; try discriminate. apply default_size in E; [|exact Hb].
  cbn [rbind]. go; [|congruence]. intros H. apply construct_size in H; auto using part_size.
Qed.

Lemma assign_size td c b b' : length c = N -> length b = N -> opt_assign td t c b = Ok b' -> length b' = N.
Proof.
  intros Hc Hb. unfold opt_assign. go.
  - intros [= <-]. apply put_size; auto using part_size.
  - intros H. apply construct_size in H; auto using part_size.
  - intros H. apply reset_size in H; auto.
Qed.

Lemma swap_size td b c b' c' : length b = N -> length c = N -> opt_swap td t b c = Ok (b', c') -> length b' = N /\ length c' = N.
Proof.
  intros Hb Hc. unfold opt_swap. go; intros [= <- <-]; auto using put_size, part_size.
Qed.
End Sizes.

(** * Paths *)

Fixpoint passes (p : path) (u : ty) (b : bytes) : res unit :=
  match p with
  | [] => Ok tt
  | Deref :: p =>
      match u with
      | TOption t => let* h := opt_has_value t b in verify h (passes p t (slice 0 (sizeof t) b))
      | _ => UB
      end
  | Field i :: p =>
      match field u i with
      | Some (o, t) => passes p t (slice o (sizeof t) b)
      | None => UB
      end
  end.

Lemma start_in p u t : wf u -> ty_at p u = Some t -> start p u + sizeof t <= sizeof u.
Proof. exact (offset_in p u t). Qed.

Lemma path_form p : forall u b t, wf u -> length b = sizeof u -> ty_at p u = Some t ->
  read_path p u b = (let* _ := passes p u b in Ok (slice (start p u) (sizeof t) b)) /\
  forall f, (forall x y, length x = sizeof t -> f x = Ok y -> length y = sizeof t) ->
    update_path p u f b = (let* _ := passes p u b in let* y := f (slice (start p u) (sizeof t) b) in Ok (splice (start p u) y b)).
Proof.
  induction p as [|[|i] p IH]; intros u b t Hw Hb Ht; cbn [ty_at passes read_path update_path start] in *.
  - injection Ht as <-. cbn [rbind]. rewrite slice_all by congruence. split; [reflexivity|]. intros f Hf.
    destruct (f b) as [y| |] eqn:E; cbn [rbind]; try reflexivity. rewrite splice_all; [reflexivity|]. rewrite (Hf b y Hb E). congruence.
  - destruct u; try discriminate. pose proof (option_size_ge u (proj1 Hw)) as G. pose proof (start_in p u t (proj1 Hw) Ht) as S1.
    destruct (IH u (slice 0 (sizeof u) b) t (proj1 Hw)) as [A B]; [rewrite slice_length; lia|exact Ht|].
    rewrite slice_slice in A, B by exact S1. cbn [Nat.add] in A, B.
    unfold opt_get. destruct (opt_has_value u b) as [[]| |]; cbn [rbind verify]; try (split; [reflexivity|]; intros; reflexivity).
    split; [exact A|]. intros f Hf. rewrite (B f Hf). destruct (passes p u _); cbn [rbind]; try reflexivity.
    destruct (f _) as [y| |] eqn:E; cbn [rbind]; try reflexivity. rewrite splice_splice_in; [reflexivity| |lia].
    assert (length y = sizeof t) as -> by (eapply Hf; [|exact E]; rewrite slice_length; lia). exact S1.
  - destruct (field u i) as [[o ft]|] eqn:E; [|discriminate]. destruct (field_wf u i o ft Hw E) as (Hwf & Hs).
    pose proof (start_in p ft t Hwf Ht) as S1.
    destruct (IH ft (slice o (sizeof ft) b) t Hwf) as [A B]; [rewrite slice_length; lia|exact Ht|].
    rewrite slice_slice in A, B by exact S1. split; [exact A|]. intros f Hf. rewrite (B f Hf).
    destruct (passes p ft _); cbn [rbind]; try reflexivity.
    destruct (f _) as [y| |] eqn:Ef; cbn [rbind]; try reflexivity. rewrite splice_splice_in; [reflexivity| |lia].
    assert (length y = sizeof t) as -> by (eapply Hf; [|exact Ef]; rewrite slice_length; lia). exact S1.
Qed.

Lemma way_in p : forall u a l, wf u -> In (a, l) (way p u) -> a + l <= sizeof u.
Proof.
  induction p as [|[|i] p IH]; intros u a l Hw Hi; cbn [way] in Hi.
  - destruct Hi.
  - destruct u; try destruct Hi. apply in_app_or in Hi. destruct Hi as [Hi|Hi]; [now apply touched_in|].
    specialize (IH u a l (proj1 Hw) Hi). pose proof (option_size_ge u (proj1 Hw)). lia.
  - destruct (field u i) as [[o ft]|] eqn:E; [|destruct Hi]. destruct (field_wf u i o ft Hw E) as (Hwf & Hs).
    apply in_map_iff in Hi. destruct Hi as ([a' l'] & [= <- <-] & Hi). specialize (IH ft a' l' Hwf Hi). lia.
Qed.

Lemma passes_alike p : forall u b b', wf u -> length b = sizeof u -> length b' = sizeof u -> alike (way p u) b b' ->
  passes p u b = passes p u b'.
Proof.
  induction p as [|[|i] p IH]; intros u b b' Hw Hb Hb' Ha; cbn [way passes] in *.
  - reflexivity.
  - destruct u; try reflexivity. apply alike_app in Ha. destruct Ha as [H1 H2]. pose proof (option_size_ge u (proj1 Hw)) as G.
    rewrite (has_value_alike u b b' Hw Hb Hb' H1). rewrite (IH u (slice 0 (sizeof u) b) (slice 0 (sizeof u) b')); [reflexivity|exact (proj1 Hw)|rewrite slice_length; lia..|].
    apply alike_slice; [intros a l; apply way_in, (proj1 Hw)|now rewrite moved_0].
  - destruct (field u i) as [[o ft]|] eqn:E; [|reflexivity]. destruct (field_wf u i o ft Hw E) as (Hwf & Hs).
    apply IH; [exact Hwf|rewrite slice_length; lia..|]. apply alike_slice; [intros a l; now apply way_in|exact Ha].
Qed.

Lemma splice_alike r o y m m' : o + length y <= length m -> length m = length m' -> alike r m m' ->
  alike r (splice o y m) (splice o y m').
Proof.
  intros Hl He Ha a l Hin. specialize (Ha a l Hin). apply nth_error_ext. intros i.
  apply (f_equal (fun s => nth_error s i)) in Ha. rewrite !nth_error_slice in *. destruct (Nat.ltb i l); [|reflexivity].
  rewrite !nth_error_splice by lia. now rewrite Ha.
Qed.

(** * Calls *)

Section Memory.
Context (k : ty -> triviality) (env : list (nat * ty)) (n : nat).
Context (Hlay : laid_out env n).

Definition pass (p : place) (m : bytes) : res unit :=
  match nth_error env (fst p) with
  | Some (o, u) => passes (snd p) u (slice o (sizeof u) m)
  | None => UB
  end.

Lemma object_eq p t : place_ty env p = Some t -> object env p = [(base env p, sizeof t)].
Proof.
  unfold place_ty, object, base, at_var. destruct (nth_error env (fst p)) as [[o u]|]; [|discriminate]. intros ->. reflexivity.
Qed.

Lemma state_eq p t : place_ty env p = Some t -> state env p = moved (base env p) (touched t).
Proof.
  unfold place_ty, state, base, at_var. destruct (nth_error env (fst p)) as [[o u]|]; [|discriminate]. intros ->. reflexivity.
Qed.

Lemma place_form p m t : length m = n -> place_ty env p = Some t ->
  read env p m = (let* _ := pass p m in Ok (slice (base env p) (sizeof t) m)) /\
  forall f, (forall x y, length x = sizeof t -> f x = Ok y -> length y = sizeof t) ->
    update env p f m = (let* _ := pass p m in let* y := f (slice (base env p) (sizeof t) m) in Ok (splice (base env p) y m)).
Proof.
  intros Hm Ht. unfold read, update, pass, base, place_ty in *. destruct (nth_error env (fst p)) as [[o u]|] eqn:E; [|discriminate].
  destruct (proj1 Hlay _ _ _ E) as (Hw & Hs). pose proof (start_in _ _ _ Hw Ht) as S1.
  destruct (path_form (snd p) u (slice o (sizeof u) m) t Hw) as [A B]; [rewrite slice_length; lia|exact Ht|].
  rewrite slice_slice in A, B by exact S1. split; [exact A|]. intros f Hf. rewrite (B f Hf).
  destruct (passes _ _ _); cbn [rbind]; try reflexivity. change (AliasFacts.offset (snd p) u) with (start (snd p) u).
  destruct (f _) as [y| |] eqn:Ef; cbn [rbind]; try reflexivity. rewrite splice_splice_in; [reflexivity| |lia].
  assert (length y = sizeof t) as -> by (eapply Hf; [|exact Ef]; rewrite slice_length; lia). exact S1.
Qed.

Lemma pass_alike p m m' t : length m = n -> length m' = n -> place_ty env p = Some t -> alike (checks env p) m m' -> pass p m = pass p m'.
Proof.
  intros Hm Hm' Ht Ha. unfold pass, checks, at_var, place_ty in *. destruct (nth_error env (fst p)) as [[o u]|] eqn:E; [|discriminate].
  destruct (proj1 Hlay _ _ _ E) as (Hw & Hs). apply passes_alike; [exact Hw|rewrite slice_length; lia..|].
  apply alike_slice; [intros a l; now apply way_in|exact Ha].
Qed.

(** Two runs of one step on memories that are alike in [r]; the first changes only bytes of [w]. *)
Definition agree (r w : list region) (m : bytes) (e e' : res bytes) : Prop :=
  match e, e' with
  | Ok x, Ok x' => alike r x x' /\ length x = n /\ length x' = n /\ framed w m x
  | Verify, Verify => True
  | UB, UB => True
  | _, _ => False
  end.

Lemma agree_bind r w m e e' f f' : agree r w m e e' ->
  (forall x x', alike r x x' -> length x = n -> length x' = n -> agree r w x (f x) (f' x')) -> agree r w m (rbind e f) (rbind e' f').
Proof.
  intros H G. destruct e as [x| |], e' as [x'| |]; cbn [rbind agree] in *; try tauto. destruct H as (A & L & L' & F).
  specialize (G x x' A L L'). destruct (f x), (f' x'); cbn [agree] in *; try tauto. destruct G as (A' & L1 & L2 & F').
  repeat (split; [assumption|]). eapply framed_trans; eauto.
Qed.

Lemma read_agree r p m m' t : length m = n -> length m' = n -> place_ty env p = Some t ->
  incl (checks env p ++ object env p) r -> alike r m m' -> read env p m = read env p m' /\
  (forall c, read env p m = Ok c -> length c = sizeof t).
Proof.
  intros Hm Hm' Ht Hi Ha. apply (alike_incl _ _ _ _ Hi), alike_app in Ha. destruct Ha as [H1 H2].
  rewrite (object_eq p t Ht) in H2. specialize (H2 _ _ (or_introl eq_refl)).
  rewrite (proj1 (place_form p m t Hm Ht)), (proj1 (place_form p m' t Hm' Ht)), (pass_alike p m m' t Hm Hm' Ht H1), H2.
  split; [reflexivity|]. intros c. destruct (pass p m'); try discriminate. intros [= <-]. rewrite <- H2.
  apply slice_length. pose proof (base_in k env n Hlay p t Ht). lia.
Qed.

Lemma update_agree r w p m m' t f : length m = n -> length m' = n -> place_ty env p = Some t ->
  (forall x y, length x = sizeof t -> f x = Ok y -> length y = sizeof t) ->
  incl (checks env p ++ object env p) r -> incl (object env p) w -> alike r m m' ->
  agree r w m (update env p f m) (update env p f m').
Proof.
  intros Hm Hm' Ht Hf Hi Hw Ha. pose proof Ha as Ha'. apply (alike_incl _ _ _ _ Hi), alike_app in Ha'. destruct Ha' as [H1 H2].
  rewrite (object_eq p t Ht) in H2, Hw. specialize (H2 _ _ (or_introl eq_refl)).
  rewrite (proj2 (place_form p m t Hm Ht) f Hf), (proj2 (place_form p m' t Hm' Ht) f Hf), (pass_alike p m m' t Hm Hm' Ht H1), H2.
  destruct (pass p m'); cbn [rbind agree]; auto. pose proof (base_in k env n Hlay p t Ht) as Hb.
  destruct (f _) as [y| |] eqn:E; cbn [rbind agree]; auto.
  assert (length y = sizeof t) as Ly by (eapply Hf; [|exact E]; apply slice_length; lia).
  split; [apply splice_alike; auto; lia|]. split; [rewrite splice_length; lia|]. split; [rewrite splice_length; lia|].
  apply framed_splice; [lia|]. apply Hw. left. now rewrite Ly.
Qed.

Lemma on_option_agree r w p m m' t f : length m = n -> length m' = n -> place_ty env p = Some (TOption t) ->
  (forall x y, length x = sizeof (TOption t) -> f t x = Ok y -> length y = sizeof (TOption t)) ->
  incl (checks env p ++ object env p) r -> incl (object env p) w -> alike r m m' ->
  agree r w m (on_option env p f m) (on_option env p f m').
Proof. intros Hm Hm' Ht. unfold on_option. rewrite Ht. now apply update_agree. Qed.

(** The same for a call. *)
Definition agrees (r w : list region) (m : bytes) (e e' : res (bytes * option obs)) : Prop :=
  match e, e' with
  | Ok (x, s), Ok (x', s') => s = s' /\ alike r x x' /\ length x = n /\ length x' = n /\ framed w m x
  | Verify, Verify => True
  | UB, UB => True
  | _, _ => False
  end.

Lemma no_obs_agree r w m e e' : agree r w m e e' -> agrees r w m (no_obs e) (no_obs e').
Proof. destruct e, e'; cbn; tauto. Qed.

Lemma rbind_same {A} r w m (e e' : res A) (f f' : A -> res bytes) : e = e' -> (forall a, e = Ok a -> agree r w m (f a) (f' a)) ->
  agree r w m (rbind e f) (rbind e' f').
Proof. intros <- H. destruct e; cbn; auto. Qed.

Lemma checks_nil x : checks env (x, []) = [].
Proof. unfold checks, at_var. cbn. now destruct (nth_error env x) as [[]|]. Qed.

Ltac inc := unfold incl in *; intros; cbn [reads writes] in *; rewrite ?checks_nil in *; cbn [app] in *; repeat rewrite in_app_iff in *; tauto.
Ltac sub H := let a := fresh in intros a; specialize (H a); cbn [reads writes] in H; rewrite ?checks_nil in *; cbn [app] in *; repeat rewrite in_app_iff in *; tauto.

Lemma place_wf' p t : place_ty env p = Some t -> wf t.
Proof. exact (place_wf env n Hlay p t). Qed.

Lemma copy_ctor_size t c x y : wf (TOption t) -> length c = sizeof (TOption t) -> length x = sizeof (TOption t) ->
  copy_ctor k t c x = Ok y -> length y = sizeof (TOption t).
Proof. intros Hw Hc Hx. unfold copy_ctor. destruct (t_tcc (k t)); [congruence|]. now apply copy_size. Qed.
Lemma take_result_size t c x y : wf (TOption t) -> length c = sizeof (TOption t) -> length x = sizeof (TOption t) ->
  take_result k t c x = Ok y -> length y = sizeof (TOption t).
Proof. intros Hw Hc Hx. unfold take_result. destruct (t_tmc (k t)); [congruence|]. now apply copy_size. Qed.
Lemma copy_assign_size t c x y : wf (TOption t) -> length c = sizeof (TOption t) -> length x = sizeof (TOption t) ->
  copy_assign k t c x = Ok y -> length y = sizeof (TOption t).
Proof. intros Hw Hc Hx. unfold copy_assign. destruct (_ && _); [congruence|]. now apply assign_size. Qed.

Lemma step_agrees r o m m' : length m = n -> length m' = n -> typed env o -> incl (reads env o ++ writes env o) r -> alike r m m' ->
  agrees r (writes env o) m (bstep k env o m) (bstep k env o m').
Proof.
  intros Hm Hm' Hty Hi Ha. destruct o as [x i|x v|x q|x q|x|p|p v|p v|p v|p q|p q|p v|p|p]; cbn [bstep typed] in *.
  - destruct Hty as (t & (_ & Ht) & Hv). pose proof (place_wf' _ _ Ht) as Hw.
    destruct i as [v|]; apply no_obs_agree; apply (on_option_agree r _ (x, []) m m' t); auto; try sub Hi; try inc; intros c y Hc E.
    + apply construct_size in E; auto. apply (valid_sized _ _ Hv).
    + apply default_size in E; auto.
  - destruct Hty as (t & Ht & Hv). apply no_obs_agree. apply (update_agree r _ (x, []) m m' t); auto; try sub Hi; try inc.
    intros c y _ [= <-]. apply (valid_sized _ _ Hv).
  - destruct Hty as (t & (_ & Ht) & (_ & Hq)). pose proof (place_wf' _ _ Ht) as Hw. apply no_obs_agree.
    destruct (read_agree r q m m' _ Hm Hm' Hq) as [E L]; [sub Hi|exact Ha|]. apply rbind_same; [exact E|]. intros c Hc.
    apply (on_option_agree r _ (x, []) m m' t); auto; try sub Hi; try inc. intros y z Hy. apply copy_ctor_size; auto.
  - destruct Hty as (t & (_ & Ht) & (_ & Hq)). pose proof (place_wf' _ _ Ht) as Hw. apply no_obs_agree.
    destruct (read_agree r q m m' _ Hm Hm' Hq) as [E L]; [sub Hi|exact Ha|]. apply rbind_same; [exact E|]. intros c Hc.
    apply agree_bind.
    + apply (on_option_agree r _ (x, []) m m' t); auto; try sub Hi; try inc. intros y z Hy. apply take_result_size; auto.
    + intros y y' Hy Ly Ly'. apply (on_option_agree r _ q y y' t); auto; try sub Hi; try inc. intros c1 c2 L1 E1. apply reset_size in E1; auto.
  - cbn. repeat (split; [auto|]). apply framed_refl.
  - destruct Hty as (t & (_ & Ht)). pose proof (place_wf' _ _ Ht) as Hw. apply no_obs_agree.
    apply (on_option_agree r _ p m m' t); auto; try sub Hi; try inc. intros y z Hy E. apply reset_size in E; auto.
  - destruct Hty as (t & (_ & Ht) & Hv). pose proof (place_wf' _ _ Ht) as Hw. apply no_obs_agree.
    apply (on_option_agree r _ p m m' t); auto; try sub Hi; try inc. intros y z Hy E. apply assign_value_size in E; auto. apply (valid_sized _ _ Hv).
  - destruct Hty as (t & (_ & Ht) & Hv). pose proof (place_wf' _ _ Ht) as Hw. apply no_obs_agree.
    apply (on_option_agree r _ p m m' t); auto; try sub Hi; try inc. intros y z Hy E. apply emplace_size in E; auto. apply (valid_sized _ _ Hv).
  - destruct Hty as (t & (_ & Ht) & Hv). pose proof (place_wf' _ _ Ht) as Hw. apply no_obs_agree.
    apply (on_option_agree r _ p m m' t); auto; try sub Hi; try inc. intros y z Hy E. apply try_emplace_size in E; auto. apply (valid_sized _ _ Hv).
  - destruct Hty as (t & (_ & Ht) & (_ & Hq)). pose proof (place_wf' _ _ Ht) as Hw. apply no_obs_agree.
    destruct (read_agree r q m m' _ Hm Hm' Hq) as [E L]; [sub Hi|exact Ha|]. apply rbind_same; [exact E|]. intros c Hc.
    apply (on_option_agree r _ p m m' t); auto; try sub Hi; try inc. intros y z Hy. apply copy_assign_size; auto.
  - destruct Hty as (t & (_ & Ht) & (_ & Hq)). pose proof (place_wf' _ _ Ht) as Hw. rewrite Ht. apply no_obs_agree.
    destruct (read_agree r q m m' _ Hm Hm' Hq) as [E L]; [sub Hi|exact Ha|]. apply rbind_same; [exact E|]. intros c Hc.
    destruct (read_agree r p m m' _ Hm Hm' Ht) as [E' L']; [sub Hi|exact Ha|]. apply rbind_same; [exact E'|]. intros b Hb.
    apply rbind_same; [reflexivity|]. intros [b' c'] Hs. apply swap_size in Hs; auto. destruct Hs as [S1 S2]. cbn [fst snd].
    apply agree_bind.
    + apply (update_agree r _ q m m' (TOption t)); auto; try sub Hi; try inc. intros y z _ [= <-]. exact S2.
    + intros y y' Hy Ly Ly'. apply (update_agree r _ p y y' (TOption t)); auto; try sub Hi; try inc. intros y1 z _ [= <-]. exact S1.
  - destruct Hty as (t & _ & Ht & Hv). apply no_obs_agree. apply (update_agree r _ p m m' t); auto; try sub Hi; try inc.
    intros c y _ [= <-]. apply (valid_sized _ _ Hv).
  - destruct Hty as (t & (_ & Ht)). pose proof (place_wf' _ _ Ht) as Hw. rewrite Ht.
    pose proof Ha as Ha'. apply (alike_incl _ _ _ _ Hi) in Ha'. cbn [reads writes] in Ha'. rewrite app_nil_r in Ha'. apply alike_app in Ha'.
    destruct Ha' as [H1 H2]. rewrite (state_eq p _ Ht) in H2. pose proof (base_in k env n Hlay p _ Ht) as Hb.
    rewrite (proj1 (place_form p m _ Hm Ht)), (proj1 (place_form p m' _ Hm' Ht)), (pass_alike p m m' _ Hm Hm' Ht H1).
    destruct (pass p m'); cbn [rbind]; try exact I.
    rewrite (has_value_alike t (slice (base env p) (sizeof (TOption t)) m) (slice (base env p) (sizeof (TOption t)) m') Hw);
      [|rewrite slice_length; lia..|apply alike_slice; [intros b l; now apply touched_in|exact H2]].
    destruct (opt_has_value t _); cbn [rbind agrees]; try exact I. repeat (split; [auto|]). apply framed_refl.
  - destruct Hty as (t & (_ & Ht)). rewrite Ht.
    destruct (read_agree r p m m' _ Hm Hm' Ht) as [E L]; [sub Hi|exact Ha|]. rewrite <- E.
    destruct (read env p m); cbn [rbind]; try exact I. destruct (opt_get t _); cbn [rbind agrees]; try exact I.
    repeat (split; [auto|]). apply framed_refl.
Qed.

Lemma alike_refl r m : alike r m m.
Proof. intros o l _. reflexivity. Qed.

Lemma step_writes o m x s : length m = n -> typed env o -> bstep k env o m = Ok (x, s) -> length x = n /\ framed (writes env o) m x.
Proof.
  intros Hm Hty E. pose proof (step_agrees _ o m m Hm Hm Hty (incl_refl _) (alike_refl _ m)) as H. rewrite E in H. cbn in H. tauto.
Qed.

Lemma step_keeps o m x s : length m = n -> typed env o -> bstep k env o m = Ok (x, s) ->
  length x = n /\ forall i, ~ inside i (writes env o) -> nth_error x i = nth_error m i.
Proof.
  intros Hm Hty E. destruct (step_writes o m x s Hm Hty E) as [L [_ F]]. split; [exact L|]. intros i Hi. apply F.
  intros a l Hin. destruct (Nat.lt_ge_cases i a); [now left|]. destruct (Nat.lt_ge_cases i (a + l)); [|now right].
  destruct Hi. exists a, l. auto.
Qed.

(** * Threads *)

Lemma inside_outside i r : inside i r \/ outside i r.
Proof.
  induction r as [|[o l] r IH]; [right; intros o l []|].
  destruct (Nat.lt_ge_cases i o) as [H|H]; [|destruct (Nat.lt_ge_cases i (o + l)) as [H'|H']].
  - destruct IH as [(a & b & I & J)|IH]; [left; exists a, b; split; [now right|exact J]|right].
    intros a b [[= <- <-]|I]; [now left|now apply IH].
  - left. exists o, l. split; [now left|auto].
  - destruct IH as [(a & b & I & J)|IH]; [left; exists a, b; split; [now right|exact J]|right].
    intros a b [[= <- <-]|I]; [now right|now apply IH].
Qed.

Lemma alike_other w r m x : framed w m x -> (forall i, ~ (inside i w /\ inside i r)) -> alike r x m.
Proof.
  intros [L F] D o l Hin. apply nth_error_ext. intros i. rewrite !nth_error_slice. destruct (Nat.ltb_spec i l); [|reflexivity].
  apply F. destruct (inside_outside (o + i) w) as [H'|H']; [|exact H']. destruct (D (o + i)). split; [exact H'|].
  exists o, l. split; [exact Hin|lia].
Qed.

Lemma alike_trans r a b c : alike r a b -> alike r b c -> alike r a c.
Proof. intros H1 H2 o l Hin. now rewrite (H1 o l Hin), (H2 o l Hin). Qed.
Lemma alike_sym r a b : alike r a b -> alike r b a.
Proof. intros H o l Hin. now rewrite (H o l Hin). Qed.

Lemma inside_flat {A} (f : A -> list region) os i : inside i (flat_map f os) -> exists o, In o os /\ inside i (f o).
Proof.
  intros (a & l & Hin & H). apply in_flat_map in Hin. destruct Hin as (o & Ho & Hin). exists o. split; [exact Ho|]. exists a, l. auto.
Qed.
Lemma inside_app i r s : inside i (r ++ s) <-> inside i r \/ inside i s.
Proof.
  unfold inside. split.
  - intros (o & l & Hin & H). apply in_app_or in Hin. destruct Hin; [left|right]; exists o, l; auto.
  - intros [(o & l & Hin & H)|(o & l & Hin & H)]; exists o, l; (split; [apply in_or_app; auto|exact H]).
Qed.

Lemma nth_put {A} (l : list A) i j x y : nth_error l i = Some y -> nth_error (put l i x) j = if Nat.eqb j i then Some x else nth_error l j.
Proof. intros H. apply nth_error_put. apply nth_error_Some. congruence. Qed.

Lemma race_free_step ts i o os : race_free env ts -> nth_error ts i = Some (o :: os) -> race_free env (put ts i os).
Proof.
  intros H Hi a b u v c d Hab. rewrite !(nth_put _ _ _ _ _ Hi). destruct (Nat.eqb_spec a i) as [->|N1], (Nat.eqb_spec b i) as [->|N2].
  - destruct (Hab eq_refl).
  - intros [= <-] Hb Hc Hd. apply (H i b (o :: os) v); auto. now right.
  - intros Ha [= <-] Hc Hd. apply (H a i u (o :: os)); auto. now right.
  - intros Ha Hb. now apply (H a b u v).
Qed.
Lemma typed_step ts i o os : all_typed env ts -> nth_error ts i = Some (o :: os) -> typed env o /\ all_typed env (put ts i os).
Proof.
  intros H Hi. pose proof (H i _ Hi) as F. inversion F; subst. split; [assumption|]. intros j u. rewrite (nth_put _ _ _ _ _ Hi).
  destruct (Nat.eqb_spec j i); [intros [= <-]; assumption|apply H].
Qed.

Lemma turns_same i s : turns i (i :: s) = S (turns i s).
Proof. unfold turns. cbn. destruct (Nat.eq_dec i i); congruence. Qed.
Lemma turns_other i j s : i <> j -> turns i (j :: s) = turns i s.
Proof. intros H. unfold turns. cbn. destruct (Nat.eq_dec j i); congruence. Qed.

(** What thread i does among the others is what it does alone, on any memory that is alike in its bytes. *)
Lemma threads_alone sched : forall ts m, length m = n -> all_typed env ts -> race_free env ts ->
  match threads k env sched ts m with
  | (tr, Ok m') => length m' = n /\
      forall i os, nth_error ts i = Some os -> forall r mi, incl (footprint env os) r -> length mi = n -> alike r m mi ->
      (forall j os', j <> i -> nth_error ts j = Some os' -> forall b, ~ (inside b (flat_map (writes env) os') /\ inside b r)) ->
      exists mi', brun k env (firstn (turns i sched) os) mi = (seen_by i tr, Ok mi') /\ length mi' = n /\ alike r m' mi'
  | (tr, e) => exists i os, nth_error ts i = Some os /\ forall r mi, incl (footprint env os) r -> length mi = n -> alike r m mi ->
      (forall j os', j <> i -> nth_error ts j = Some os' -> forall b, ~ (inside b (flat_map (writes env) os') /\ inside b r)) ->
      brun k env (firstn (turns i sched) os) mi = (seen_by i tr, e)
  end.
Proof.
  induction sched as [|i sched IH]; intros ts m Hm Hty Hrf; cbn [threads].
  - split; [exact Hm|]. intros i os Hi r mi Hr Lm Ha _. exists mi. cbn. auto.
  - destruct (nth_error ts i) as [[|o os]|] eqn:Hi.
    + specialize (IH ts m Hm Hty Hrf). destruct (threads k env sched ts m) as [tr [m'| |]].
      * destruct IH as [L IH]. split; [exact L|]. intros j os Hj r mi Hr Lm Ha D. destruct (Nat.eq_dec j i) as [->|N].
        -- rewrite Hi in Hj. injection Hj as <-. specialize (IH i [] Hi r mi Hr Lm Ha D). rewrite firstn_nil in *. exact IH.
        -- rewrite turns_other by exact N. now apply (IH j os Hj r mi).
      * destruct IH as (j & os & Hj & IH). exists j, os. split; [exact Hj|]. intros r mi Hr Lm Ha D. destruct (Nat.eq_dec j i) as [->|N].
        -- rewrite Hi in Hj. injection Hj as <-. specialize (IH r mi Hr Lm Ha D). rewrite firstn_nil in *. exact IH.
        -- rewrite turns_other by exact N. now apply (IH r mi).
      * destruct IH as (j & os & Hj & IH). exists j, os. split; [exact Hj|]. intros r mi Hr Lm Ha D. destruct (Nat.eq_dec j i) as [->|N].
        -- rewrite Hi in Hj. injection Hj as <-. specialize (IH r mi Hr Lm Ha D). rewrite firstn_nil in *. exact IH.
        -- rewrite turns_other by exact N. now apply (IH r mi).
    + destruct (typed_step ts i o os Hty Hi) as [To Hty']. pose proof (race_free_step ts i o os Hrf Hi) as Hrf'.
      assert (forall r, incl (footprint env (o :: os)) r -> incl (reads env o ++ writes env o) r) as Hfp
        by (intros r Hr a Ia; apply Hr; cbn [footprint flat_map]; apply in_or_app; now left).
      destruct (bstep k env o m) as [[m1 s]| |] eqn:E.
      * destruct (step_writes o m m1 s Hm To E) as [L1 F1]. specialize (IH (put ts i os) m1 L1 Hty' Hrf').
        (* the step seen from a thread *)
        assert (forall r mi, incl (footprint env (o :: os)) r -> length mi = n -> alike r m mi ->
          exists mi1, bstep k env o mi = Ok (mi1, s) /\ length mi1 = n /\ alike r m1 mi1) as Own.
        { intros r mi Hr Lm Ha. pose proof (step_agrees r o m mi Hm Lm To (Hfp r Hr) Ha) as P. rewrite E in P.
          destruct (bstep k env o mi) as [[mi1 s1]| |]; [|destruct P..].
          destruct P as (P1 & P2 & _ & P3 & _). exists mi1. subst s1. auto. }
        assert (forall r, (forall j os', j <> i -> nth_error ts j = Some os' -> forall b, ~ (inside b (flat_map (writes env) os') /\ inside b r)) ->
          forall j os', j <> i -> nth_error (put ts i os) j = Some os' -> forall b, ~ (inside b (flat_map (writes env) os') /\ inside b r)) as DOwn.
        { intros r D j os' N. rewrite (nth_put _ _ _ _ _ Hi). destruct (Nat.eqb_spec j i); [congruence|]. now apply D. }
        assert (forall j r, j <> i ->
          (forall a os', a <> j -> nth_error ts a = Some os' -> forall b, ~ (inside b (flat_map (writes env) os') /\ inside b r)) ->
          alike r m1 m /\ forall a os', a <> j -> nth_error (put ts i os) a = Some os' -> forall b, ~ (inside b (flat_map (writes env) os') /\ inside b r)) as Other.
        { intros j r N D. split.
          - apply (alike_other (writes env o)); [exact F1|]. intros b [B1 B2]. apply (D i (o :: os) (not_eq_sym N) Hi b). split; [|exact B2].
            cbn [flat_map]. apply inside_app. now left.
          - intros a os' Na. rewrite (nth_put _ _ _ _ _ Hi). destruct (Nat.eqb_spec a i) as [->|N'].
            + intros [= <-] b [B1 B2]. apply (D i (o :: os) Na Hi b). split; [|exact B2]. cbn [flat_map]. apply inside_app. now right.
            + now apply D. }
        assert (forall tr j, j <> i -> seen_by j (match s with Some s => (i, s) :: tr | None => tr end) = seen_by j tr) as SOther.
        { intros tr j N. destruct s as [s|]; [|reflexivity]. unfold seen_by. cbn [filter fst]. destruct (Nat.eqb_spec i j); [congruence|reflexivity]. }
        assert (forall tr, seen_by i (match s with Some s => (i, s) :: tr | None => tr end) =
          match s with Some s => s :: seen_by i tr | None => seen_by i tr end) as SOwn.
        { intros tr. destruct s as [s|]; [|reflexivity]. unfold seen_by. cbn [filter fst]. now rewrite Nat.eqb_refl. }
        assert (incl (footprint env os) (footprint env (o :: os))) as FI by (intros a Ia; cbn [footprint flat_map]; apply in_or_app; now right).
        destruct (threads k env sched (put ts i os) m1) as [tr [m'| |]].
        -- destruct IH as [L IH]. split; [exact L|]. intros j u Hj r mi Hr Lm Ha D. destruct (Nat.eq_dec j i) as [->|N].
           ++ rewrite Hi in Hj. injection Hj as <-. destruct (Own r mi Hr Lm Ha) as (mi1 & Ei & Li & Ai).
              assert (nth_error (put ts i os) i = Some os) as Hp by (rewrite (nth_put _ _ _ _ _ Hi); now rewrite Nat.eqb_refl).
              destruct (IH i os Hp r mi1 (incl_tran FI Hr) Li Ai (DOwn r D)) as (mi' & B & C).
              exists mi'. split; [|exact C]. rewrite turns_same. cbn [firstn brun]. rewrite Ei, B, SOwn. reflexivity.
           ++ rewrite turns_other, SOther by exact N. destruct (Other j r N D) as [A1 D1].
              apply (IH j u); auto. { rewrite (nth_put _ _ _ _ _ Hi). destruct (Nat.eqb_spec j i); [congruence|exact Hj]. }
              eapply alike_trans; eauto.
        -- destruct IH as (j & u & Hj & IH). rewrite (nth_put _ _ _ _ _ Hi) in Hj. destruct (Nat.eqb_spec j i) as [->|N].
           ++ injection Hj as <-. exists i, (o :: os). split; [exact Hi|]. intros r mi Hr Lm Ha D. destruct (Own r mi Hr Lm Ha) as (mi1 & Ei & Li & Ai).
              rewrite turns_same. cbn [firstn brun]. rewrite Ei, (IH r mi1 (incl_tran FI Hr) Li Ai (DOwn r D)), SOwn. reflexivity.
           ++ exists j, u. split; [exact Hj|]. intros r mi Hr Lm Ha D. rewrite turns_other, SOther by exact N.
              destruct (Other j r N D) as [A1 D1]. apply (IH r mi); auto. eapply alike_trans; eauto.
        -- destruct IH as (j & u & Hj & IH). rewrite (nth_put _ _ _ _ _ Hi) in Hj. destruct (Nat.eqb_spec j i) as [->|N].
           ++ injection Hj as <-. exists i, (o :: os). split; [exact Hi|]. intros r mi Hr Lm Ha D. destruct (Own r mi Hr Lm Ha) as (mi1 & Ei & Li & Ai).
              rewrite turns_same. cbn [firstn brun]. rewrite Ei, (IH r mi1 (incl_tran FI Hr) Li Ai (DOwn r D)), SOwn. reflexivity.
           ++ exists j, u. split; [exact Hj|]. intros r mi Hr Lm Ha D. rewrite turns_other, SOther by exact N.
              destruct (Other j r N D) as [A1 D1]. apply (IH r mi); auto. eapply alike_trans; eauto.
      * exists i, (o :: os). split; [exact Hi|]. intros r mi Hr Lm Ha _. rewrite turns_same. cbn [firstn brun].
        pose proof (step_agrees r o m mi Hm Lm To (Hfp r Hr) Ha) as P. rewrite E in P.
        destruct (bstep k env o mi) as [[mi1 s1]| |]; [destruct P|reflexivity|destruct P].
      * exists i, (o :: os). split; [exact Hi|]. intros r mi Hr Lm Ha _. rewrite turns_same. cbn [firstn brun].
        pose proof (step_agrees r o m mi Hm Lm To (Hfp r Hr) Ha) as P. rewrite E in P.
        destruct (bstep k env o mi) as [[mi1 s1]| |]; [destruct P|destruct P|reflexivity].
    + specialize (IH ts m Hm Hty Hrf). destruct (threads k env sched ts m) as [tr [m'| |]].
      * destruct IH as [L IH]. split; [exact L|]. intros j os Hj r mi Hr Lm Ha D. rewrite turns_other by congruence. now apply (IH j os Hj r mi).
      * destruct IH as (j & os & Hj & IH). exists j, os. split; [exact Hj|]. intros r mi Hr Lm Ha D. rewrite turns_other by congruence. now apply (IH r mi).
      * destruct IH as (j & os & Hj & IH). exists j, os. split; [exact Hj|]. intros r mi Hr Lm Ha D. rewrite turns_other by congruence. now apply (IH r mi).
Qed.

Lemma apart_threads ts : race_free env ts -> forall i os, nth_error ts i = Some os ->
  forall j os', j <> i -> nth_error ts j = Some os' -> forall b, ~ (inside b (flat_map (writes env) os') /\ inside b (footprint env os)).
Proof.
  intros H i os Hi j os' N Hj b [B1 B2]. apply inside_flat in B1. apply inside_flat in B2.
  destruct B1 as (o' & I' & B1), B2 as (o & I & B2). apply (H i j os os' o o' (not_eq_sym N) Hi Hj I I').
  exists b. apply inside_app in B2. destruct B2 as [B2|B2]; [right; auto|left]. split; [exact B2|]. apply inside_app. now right.
Qed.

(** Each thread sees and leaves what it sees and leaves alone. *)
Theorem threads_ok sched ts m tr m' : length m = n -> all_typed env ts -> race_free env ts -> threads k env sched ts m = (tr, Ok m') ->
  forall i os, nth_error ts i = Some os ->
    exists mi, brun k env (firstn (turns i sched) os) m = (seen_by i tr, Ok mi) /\ alike (footprint env os) m' mi.
Proof.
  intros Hm Hty Hrf E i os Hi. pose proof (threads_alone sched ts m Hm Hty Hrf) as H. rewrite E in H. destruct H as [L H].
  destruct (H i os Hi (footprint env os) m (incl_refl _) Hm (alike_refl _ _) (apart_threads ts Hrf i os Hi)) as (mi & B & _ & A). eauto.
Qed.

(** A program of threads fails only if a thread fails alone. *)
Theorem threads_fail sched ts m tr e : length m = n -> all_typed env ts -> race_free env ts -> threads k env sched ts m = (tr, e) ->
  e = Verify \/ e = UB -> exists i os, nth_error ts i = Some os /\ brun k env (firstn (turns i sched) os) m = (seen_by i tr, e).
Proof.
  intros Hm Hty Hrf E He. pose proof (threads_alone sched ts m Hm Hty Hrf) as H. rewrite E in H.
  destruct e; [destruct He; discriminate| |]; destruct H as (i & os & Hi & H); exists i, os; (split; [exact Hi|]);
    apply (H (footprint env os) m (incl_refl _) Hm (alike_refl _ _) (apart_threads ts Hrf i os Hi)).
Qed.

(** Bytes that no call writes. *)
Lemma threads_frame sched : forall ts m tr m', length m = n -> all_typed env ts -> threads k env sched ts m = (tr, Ok m') ->
  length m' = n /\ forall b, (forall i os, nth_error ts i = Some os -> outside b (flat_map (writes env) os)) -> nth_error m' b = nth_error m b.
Proof.
  induction sched as [|i sched IH]; intros ts m tr m' Hm Hty E; cbn [threads] in E.
  - injection E as <- <-. auto.
  - destruct (nth_error ts i) as [[|o os]|] eqn:Hi; [eapply IH; eauto| |eapply IH; eauto].
    destruct (typed_step ts i o os Hty Hi) as [To Hty']. destruct (bstep k env o m) as [[m1 s]| |] eqn:Es; try discriminate.
    destruct (step_writes o m m1 s Hm To Es) as [L1 [_ F1]].
    destruct (threads k env sched (put ts i os) m1) as [tr1 r] eqn:Er. injection E as <- ->.
    destruct (IH (put ts i os) m1 tr1 m' L1 Hty' Er) as [L F]. split; [exact L|]. intros b Hb. rewrite F, F1; [reflexivity| |].
    + intros a l Hin. apply (Hb i _ Hi a l). cbn [flat_map]. apply in_or_app. now left.
    + intros j os' Hj a l Hin. rewrite (nth_put _ _ _ _ _ Hi) in Hj. destruct (Nat.eqb_spec j i) as [->|N].
      * injection Hj as <-. apply (Hb i _ Hi a l). cbn [flat_map]. apply in_or_app. now right.
      * now apply (Hb j os' Hj).
Qed.

Lemma alike_at r m m' b : alike r m m' -> inside b r -> nth_error m b = nth_error m' b.
Proof.
  intros H (o & l & Hin & Hb). specialize (H o l Hin). apply (f_equal (fun s => nth_error s (b - o))) in H.
  rewrite !nth_error_slice in H. destruct (Nat.ltb_spec (b - o) l); [|lia]. now replace (o + (b - o)) with b in H by lia.
Qed.

(** The order of the calls of different threads does not matter. *)
Theorem threads_order s1 s2 ts m tr1 m1 : length m = n -> all_typed env ts -> race_free env ts ->
  (forall i os, nth_error ts i = Some os -> firstn (turns i s1) os = firstn (turns i s2) os) ->
  threads k env s1 ts m = (tr1, Ok m1) ->
  exists tr2, threads k env s2 ts m = (tr2, Ok m1) /\ forall i os, nth_error ts i = Some os -> seen_by i tr1 = seen_by i tr2.
Proof.
  intros Hm Hty Hrf Hs E1. pose proof (threads_ok s1 ts m tr1 m1 Hm Hty Hrf E1) as O1.
  destruct (threads k env s2 ts m) as [tr2 r2] eqn:E2.
  assert (forall i os, nth_error ts i = Some os -> forall e, brun k env (firstn (turns i s2) os) m = (seen_by i tr2, e) ->
    exists mi, e = Ok mi /\ seen_by i tr1 = seen_by i tr2 /\ alike (footprint env os) m1 mi) as K.
  { intros i os Hi e Ee. destruct (O1 i os Hi) as (mi & B & A). rewrite (Hs i os Hi), Ee in B. injection B as B ->. eauto. }
  destruct r2 as [m2| |].
  - pose proof (threads_ok s2 ts m tr2 m2 Hm Hty Hrf E2) as O2. exists tr2. split.
    + f_equal. f_equal. apply nth_error_ext. intros b.
      destruct (threads_frame s1 ts m tr1 m1 Hm Hty E1) as [_ F1]. destruct (threads_frame s2 ts m tr2 m2 Hm Hty E2) as [_ F2].
      assert ((exists i os, nth_error ts i = Some os /\ inside b (flat_map (writes env) os)) \/
              forall i os, nth_error ts i = Some os -> outside b (flat_map (writes env) os)) as [(i & os & Hi & Hb)|Hb].
      { clear. induction ts as [|os ts IH]; [right; intros [] ? [=]|]. destruct (inside_outside b (flat_map (writes env) os)) as [H|H].
        - left. exists 0, os. auto.
        - destruct IH as [(i & os' & Hi & Hb)|IH]; [left; exists (S i), os'; auto|right]. intros [|i] os' [= Hi]; [now subst|now apply (IH i)]. }
      * assert (inside b (footprint env os)) as Hf.
        { apply inside_flat in Hb. destruct Hb as (o & I & (a & l & Hin & Hb)). exists a, l. split; [|exact Hb].
          apply in_flat_map. exists o. split; [exact I|]. apply in_or_app. now right. }
        destruct (O2 i os Hi) as (mi & B & A). destruct (K i os Hi _ B) as (mi' & [= <-] & _ & A').
        rewrite (alike_at _ _ _ b A Hf). symmetry. exact (alike_at _ _ _ b A' Hf).
      * now rewrite (F1 b Hb), (F2 b Hb).
    + intros i os Hi. destruct (O2 i os Hi) as (mi & B & _). now destruct (K i os Hi _ B) as (? & _ & H & _).
  - destruct (threads_fail s2 ts m tr2 _ Hm Hty Hrf E2 (or_introl eq_refl)) as (i & os & Hi & B).
    destruct (K i os Hi _ B) as (? & [=] & _).
  - destruct (threads_fail s2 ts m tr2 _ Hm Hty Hrf E2 (or_intror eq_refl)) as (i & os & Hi & B).
    destruct (K i os Hi _ B) as (? & [=] & _).
Qed.

(** * Which calls are in conflict *)

Definition within (b x : nat) : Prop := exists o u, nth_error env x = Some (o, u) /\ o <= b /\ b < o + sizeof u.

Lemma object_within b p : inside b (object env p) -> within b (fst p).
Proof.
  unfold object, at_var. intros (a & l & Hin & Hb). destruct (nth_error env (fst p)) as [[o u]|] eqn:E; [|destruct Hin].
  destruct (ty_at (snd p) u) as [t|] eqn:Et; [|destruct Hin]. destruct Hin as [[= <- <-]|[]].
  pose proof (start_in _ _ _ (proj1 (proj1 Hlay _ _ _ E)) Et). exists o, u. split; [exact E|lia].
Qed.
Lemma checks_within b p : inside b (checks env p) -> within b (fst p).
Proof.
  unfold checks, at_var. intros (a & l & Hin & Hb). destruct (nth_error env (fst p)) as [[o u]|] eqn:E; [|destruct Hin].
  apply in_map_iff in Hin. destruct Hin as ([a' l'] & [= <- <-] & Hin).
  pose proof (way_in _ _ _ _ (proj1 (proj1 Hlay _ _ _ E)) Hin). exists o, u. split; [exact E|lia].
Qed.
Lemma state_within b p : inside b (state env p) -> within b (fst p).
Proof.
  unfold state, at_var. intros (a & l & Hin & Hb). destruct (nth_error env (fst p)) as [[o u]|] eqn:E; [|destruct Hin].
  destruct (ty_at (snd p) u) as [t|] eqn:Et; [|destruct Hin]. pose proof (proj1 (proj1 Hlay _ _ _ E)) as Hw.
  apply in_map_iff in Hin. destruct Hin as ([a' l'] & [= <- <-] & Hin).
  pose proof (start_in _ _ _ Hw Et). pose proof (touched_in t _ _ (ty_at_wf _ _ _ Hw Et) Hin). exists o, u. split; [exact E|lia].
Qed.

Lemma inside_nil b : ~ inside b [].
Proof. intros (o & l & [] & _). Qed.

Lemma writes_within b o : inside b (writes env o) -> exists x, In x (changes o) /\ within b x.
Proof.
  destruct o; cbn [writes changes]; rewrite ?inside_app; intros H; try (now apply inside_nil in H);
    repeat match goal with H : _ \/ _ |- _ => destruct H as [H|H] end; apply object_within in H; cbn [fst] in H; eexists; (split; [|exact H]); cbn; auto.
Qed.
Lemma touches_within b o : inside b (reads env o ++ writes env o) -> exists x, In x (names o) /\ within b x.
Proof.
  destruct o; cbn [reads writes names]; rewrite ?inside_app; intros H;
    repeat match goal with H : _ \/ _ |- _ => destruct H as [H|H] end;
    first [now apply inside_nil in H | apply object_within in H | apply checks_within in H | apply state_within in H];
    cbn [fst] in H; eexists; (split; [|exact H]); cbn; auto.
Qed.

Lemma within_same b x y : within b x -> within b y -> x = y.
Proof.
  intros (o & u & E & H) (o' & u' & E' & H'). destruct (Nat.eq_dec x y) as [|N]; [assumption|].
  destruct (proj2 Hlay _ _ _ _ _ _ N E E'); lia.
Qed.

Theorem conflict_names o o' : conflict env o o' -> exists x, (In x (changes o) /\ In x (names o')) \/ (In x (changes o') /\ In x (names o)).
Proof.
  intros (b & [[H1 H2]|[H1 H2]]).
  - apply writes_within in H1. apply touches_within in H2. destruct H1 as (x & I & W), H2 as (y & J & V).
    rewrite (within_same _ _ _ V W) in J. exists x. auto.
  - apply writes_within in H1. assert (inside b (reads env o ++ writes env o)) as H3 by (apply inside_app; auto). apply touches_within in H3.
    destruct H1 as (x & I & W), H3 as (y & J & V). rewrite (within_same _ _ _ V W) in J. exists x. auto.
Qed.

(** Members of the contained object and a stored flag. *)
Theorem flag_apart x off t q o : nth_error env x = Some (off, TOption t) -> max_level t = 0%N -> on_member (x, Deref :: q) o ->
  ~ conflict env o (OHas (x, [])).
Proof.
  intros Hx Hm Ho (b & [[H1 H2]|[H1 _]]); [|now apply inside_nil in H1].
  assert (inside b (object env (x, Deref :: q))) as H by (destruct o; cbn in Ho; try contradiction; subst; exact H1).
  cbn [reads writes] in H2. rewrite app_nil_r, checks_nil in H2. cbn [app] in H2.
  unfold object, state, at_var in *. cbn [fst snd ty_at start] in *. rewrite Hx in *.
  pose proof (proj1 (proj1 Hlay _ _ _ Hx)) as [Hw _].
  destruct (ty_at q t) as [u|] eqn:E; [|now apply inside_nil in H]. pose proof (start_in _ _ _ Hw E) as S1.
  cbn [touched] in H2. rewrite Hm in H2. cbn [N.eqb moved map] in H2.
  destruct H as (a & l & [[= <- <-]|[]] & H), H2 as (a & l & [[= <- <-]|[]] & H2). lia.
Qed.

Lemma separate_race_free ts : separate ts -> race_free env ts.
Proof.
  intros H i j os os' o o' N Hi Hj Io Io' C. destruct (conflict_names o o' C) as (x & [[A B]|[A B]]).
  - exact (H i j os os' o o' x N Hi Hj Io Io' A B).
  - exact (H j i os' os o' o x (not_eq_sym N) Hj Hi Io' Io A B).
Qed.

Lemma step_reads o m m' : length m = n -> length m' = n -> typed env o -> alike (reads env o ++ writes env o) m m' ->
  match bstep k env o m, bstep k env o m' with
  | Ok (x, s), Ok (x', s') => s = s' /\ alike (reads env o ++ writes env o) x x'
  | Verify, Verify => True
  | UB, UB => True
  | _, _ => False
  end.
Proof.
  intros Hm Hm' Hty Ha. pose proof (step_agrees _ o m m' Hm Hm' Hty (incl_refl _) Ha) as H.
  destruct (bstep k env o m) as [[x s]| |], (bstep k env o m') as [[x' s']| |]; cbn in H; tauto.
Qed.
End Memory.

(** * pair<option<bool>, int> *)

Definition pair_t : ty := TPair 0 (TOption TBool) 4 (TOpaque 4 4) 8 4.
Definition pair_env : list (nat * ty) := [(0, TOption pair_t)].
Definition pair_value : bytes := [1; 9; 9; 9; 7; 0; 0; 0]%N.

Lemma pair_apart : apart pair_t.
Proof.
  intros i j oi ti oj tj Hne Hi Hj. unfold field in *. cbn [fields pair_t] in *.
  destruct i as [|[|i]], j as [|[|j]]; cbn in Hi, Hj; try (destruct i; discriminate); try (destruct j; discriminate);
    try lia; injection Hi as <- <-; injection Hj as <- <-; cbn; lia.
Qed.

Lemma pair_laid : laid_out pair_env 8.
Proof.
  split.
  - intros [|[|x]] o u H; cbn in H; try discriminate. injection H as <- <-. split; [|vm_compute; lia].
    split; [|right; vm_compute; congruence]. cbn [pair_t wf]. unfold wf_layout. repeat split; try (vm_compute; lia).
    all: try (exists 2; reflexivity). all: try (exists 1; reflexivity). right. vm_compute. congruence.
  - intros [|[|x]] [|[|y]] o u o' u' N H H'; cbn in H, H'; try discriminate; congruence.
Qed.

Lemma pair_valid : valid pair_t pair_value.
Proof.
  cbn [pair_t valid]. split; [apply bytes_ok_sized; vm_compute; reflexivity|]. split.
  - split; [apply bytes_ok_sized; vm_compute; reflexivity|]. right. split; [vm_compute; reflexivity|].
    split; [apply bytes_ok_sized; vm_compute; reflexivity|]. right. vm_compute. reflexivity.
  - apply bytes_ok_sized; vm_compute; reflexivity.
Qed.

Lemma pair_member : is_option pair_env (0, [Deref; Field 0]) TBool.
Proof. split; [split; [exact pair_apart|exact I]|reflexivity]. Qed.

Lemma shared_byte : let reset := OReset (0, [Deref; Field 0]) in let has := OHas (0, []) in
  laid_out pair_env 8 /\ typed pair_env reset /\ typed pair_env has /\
  (forall a a' e, sstep (meaning pair_env reset) a = SDone a' e -> forall s,
     sstep (meaning pair_env has) a = SDone a s -> sstep (meaning pair_env has) a' = SDone a' s) /\
  forall k, exists m m' m'' i, represents pair_env m [Some (VSome (VTup [VSome (VBytes [1]%N); VBytes [7; 0; 0; 0]%N]))] /\
    bstep k pair_env reset m = Ok (m', None) /\ nth_error m' i <> nth_error m i /\
    represents pair_env m'' [Some VNone] /\ (forall j, j <> i -> nth_error m'' j = nth_error m j) /\
    bstep k pair_env has m = Ok (m, Some (SeenHas true)) /\ bstep k pair_env has m'' = Ok (m'', Some (SeenHas false)).
Proof.
  cbv zeta. split; [exact pair_laid|]. split; [exists TBool; exact pair_member|]. split; [exists pair_t; split; [exact I|reflexivity]|]. split.
  - intros a a' e. cbn [meaning sstep found fst snd]. unfold found, write. cbn [fst snd]. destruct a as [|[v|] a]; cbn [nth_error put]; try discriminate.
    cbn [vget vset]. destruct v as [| | |w|]; try discriminate. destruct w as [|vs| | |]; try discriminate.
    destruct (nth_error vs 0) as [w|] eqn:E; [|discriminate]. cbn [vget]. intros [= <- <-] s. cbn [nth_error vget]. congruence.
  - intros k. exists pair_value.
    assert (exists m', bstep k pair_env (OReset (0, [Deref; Field 0])) pair_value = Ok (m', None) /\ nth_error m' 0 <> nth_error pair_value 0) as (m' & E & D).
    { exists [2; 9; 9; 9; 7; 0; 0; 0]%N. split; [|discriminate]. cbn [bstep]. unfold no_obs, on_option, place_ty, update. cbn [fst snd nth_error pair_env ty_at field fields pair_t].
      destruct (t_td (k TBool)); vm_compute; reflexivity. }
    exists m', [3; 9; 9; 9; 7; 0; 0; 0]%N, 0.
    split; [|split; [exact E|split; [exact D|split; [|split; [|split]]]]].
    + split; [reflexivity|]. intros [|[|x]] o u v H H0; cbn in H, H0; try discriminate. injection H as <- <-. injection H0 as <-. split.
      * split; [apply bytes_ok_sized; vm_compute; reflexivity|]. right. split; [vm_compute; reflexivity|exact pair_valid].
      * vm_compute. reflexivity.
    + split; [reflexivity|]. intros [|[|x]] o u v H H0; cbn in H, H0; try discriminate. injection H as <- <-. injection H0 as <-. split.
      * split; [apply bytes_ok_sized; vm_compute; reflexivity|]. left. vm_compute. reflexivity.
      * vm_compute. reflexivity.
    + intros [|j] N; [congruence|reflexivity].
    + vm_compute. reflexivity.
    + vm_compute. reflexivity.
Qed.

Lemma member_shared : exists env n reset has,
  laid_out env n /\ typed env reset /\ typed env has /\ on_member (0, [Deref; Field 0]) reset /\ has = OHas (0, []) /\
  (forall a a' e, sstep (meaning env reset) a = SDone a' e -> forall s,
     sstep (meaning env has) a = SDone a s -> sstep (meaning env has) a' = SDone a' s) /\
  forall k, exists m m' m'' i, represents env m [Some (VSome (VTup [VSome (VBytes [1]%N); VBytes [7; 0; 0; 0]%N]))] /\
    bstep k env reset m = Ok (m', None) /\ nth_error m' i <> nth_error m i /\
    represents env m'' [Some VNone] /\ (forall j, j <> i -> nth_error m'' j = nth_error m j) /\
    bstep k env has m = Ok (m, Some (SeenHas true)) /\ bstep k env has m'' = Ok (m'', Some (SeenHas false)).
Proof.
  destruct shared_byte as (A & B & C & D & E). exists pair_env, 8, (OReset (0, [Deref; Field 0])), (OHas (0, [])).
  repeat (split; [first [assumption|reflexivity]|]). exact E.
Qed.

Lemma separate_free env n : laid_out env n -> forall ts, separate ts -> race_free env ts.
Proof. exact (separate_race_free (fun _ => mktriv true true true true true true) env n). Qed.

Lemma flag_free env n : laid_out env n -> forall x off t q o, nth_error env x = Some (off, TOption t) -> max_level t = 0%N ->
  on_member (x, Deref :: q) o -> ~ conflict env o (OHas (x, [])).
Proof. exact (flag_apart (fun _ => mktriv true true true true true true) env n). Qed.

Lemma observers_same k env p m x s : bstep k env (OHas p) m = Ok (x, s) \/ bstep k env (OGet p) m = Ok (x, s) -> x = m.
Proof.
  cbn [bstep]. destruct (place_ty env p) as [[]|]; try (intros [[=]|[=]]; fail).
  destruct (read env p m) as [b| |]; cbn [rbind]; try (intros [[=]|[=]]; fail).
  destruct (opt_has_value t b) as [h| |], (opt_get t b) as [v| |]; cbn [rbind]; intros [[=]|[=]]; congruence.
Qed.

