(** Byte-level programs do what programs over values do. *)
From Coq Require Import ZArith NArith List Bool Lia ZifyBool ZifyNat ZifyN.
From Verif Require Import Outcome Words WordsFacts Ints IntsFacts Types OptBytes TypesSpec EnumFacts TypesFacts OptBytesFacts.
From Verif Require Import Lifetime History ByteClass ByteProg ByteProgSpec.
Import ListNotations.
Open Scope N_scope.

(** * Members *)
Lemma valid_fields t fs b : fields t = Some fs ->
  (valid t b <-> sized (sizeof t) b /\ Forall (fun f => valid (snd f) (slice (fst f) (sizeof (snd f)) b)) fs).
Proof.
  destruct t; cbn [fields]; try discriminate; intros E; injection E as <-; cbn [valid sizeof].
  - rewrite !Forall_cons_iff. cbn [fst snd]. intuition constructor.
  - rewrite !Forall_cons_iff. cbn [fst snd]. intuition constructor.
  - rename fs0 into fs. apply and_iff_compat_l. induction fs as [|[o ft] fs IH]; [intuition constructor|].
    rewrite Forall_cons_iff. cbn [fst snd]. now rewrite IH.
  - apply and_iff_compat_l. rewrite Forall_map. cbn [fst snd]. rewrite Forall_forall. split.
    + intros H i Hi. apply in_seq in Hi. apply H. lia.
    + intros H i Hi. apply H. apply in_seq. lia.
Qed.

Lemma decode_fields t fs b : fields t = Some fs ->
  decode t b = VTup (map (fun f => decode (snd f) (slice (fst f) (sizeof (snd f)) b)) fs).
Proof.
  destruct t; cbn [fields]; try discriminate; intros E; injection E as <-; cbn [decode map fst snd]; try reflexivity.
  - f_equal. apply map_ext. intros [o ft]. reflexivity.
  - f_equal. rewrite map_map. reflexivity.
Qed.

Lemma wf_fields t fs : wf t -> fields t = Some fs ->
  Forall (fun f => wf (snd f) /\ (fst f + sizeof (snd f) <= sizeof t)%nat) fs.
Proof.
  destruct t; cbn [fields]; try discriminate; intros Hw E; injection E as <-; cbn [wf sizeof] in *.
  - rewrite !Forall_cons_iff. cbn [fst snd]. repeat split; try assumption; try lia. constructor.
  - rewrite !Forall_cons_iff. cbn [fst snd]. destruct Hw as (_ & [? ?] & [? ?]). repeat split; try assumption; try lia. constructor.
  - rename fs0 into fs. destruct Hw as [_ Hw]. induction fs as [|[o ft] fs IH]; constructor; cbn [fst snd]; [apply Hw|apply IH, Hw].
  - rewrite Forall_map. cbn [fst snd]. apply Forall_forall. intros i Hi. apply in_seq in Hi. split; [exact Hw|].
    destruct (n =? 0)%nat eqn:E; [lia|]. nia.
Qed.

Lemma field_wf t i o ft : wf t -> field t i = Some (o, ft) -> wf ft /\ (o + sizeof ft <= sizeof t)%nat.
Proof.
  unfold field. destruct (fields t) as [fs|] eqn:E; [|discriminate]. intros Hw Hn.
  pose proof (wf_fields t fs Hw E) as H. rewrite Forall_forall in H. exact (H _ (nth_error_In _ _ Hn)).
Qed.

Lemma field_valid t i o ft b : valid t b -> field t i = Some (o, ft) -> valid ft (slice o (sizeof ft) b).
Proof.
  unfold field. destruct (fields t) as [fs|] eqn:E; [|discriminate]. intros Hv Hn.
  apply (valid_fields t fs b E) in Hv as [_ H]. rewrite Forall_forall in H. exact (H _ (nth_error_In _ _ Hn)).
Qed.

Lemma field_decode t i o ft b : field t i = Some (o, ft) ->
  exists vs, decode t b = VTup vs /\ nth_error vs i = Some (decode ft (slice o (sizeof ft) b)).
Proof.
  unfold field. destruct (fields t) as [fs|] eqn:E; [|discriminate]. intros Hn.
  eexists. split; [apply (decode_fields t fs b E)|]. rewrite nth_error_map, Hn. reflexivity.
Qed.

Lemma nth_error_put {A} (l : list A) x v y : (x < length l)%nat ->
  nth_error (put l x v) y = if Nat.eqb y x then Some v else nth_error l y.
Proof.
  revert x y. induction l as [|a l IH]; intros [|x] [|y] H; cbn in *; try reflexivity; try lia. apply IH. lia.
Qed.

Lemma put_length {A} (l : list A) x v : length (put l x v) = length l.
Proof. revert x. induction l as [|a l IH]; intros [|x]; cbn; auto. Qed.

(** Replacing a member by another value. *)
Lemma field_put t i o ft b v vs : wf t -> apart t -> field t i = Some (o, ft) -> valid t b -> valid ft v ->
  decode t b = VTup vs -> valid t (splice o v b) /\ decode t (splice o v b) = VTup (put vs i (decode ft v)).
Proof.
  intros Hw Ha Hf Hv Hvv Hd. pose proof (field_wf t i o ft Hw Hf) as [_ Hle].
  pose proof (valid_sized t b Hv) as Hs. pose proof (valid_sized ft v Hvv) as Hvs.
  destruct (fields t) as [fs|] eqn:E; [|unfold field in Hf; rewrite E in Hf; discriminate].
  assert (forall j oj ftj, nth_error fs j = Some (oj, ftj) -> j <> i ->
    slice oj (sizeof ftj) (splice o v b) = slice oj (sizeof ftj) b) as Hother.
  { intros j oj ftj Hj Hne. apply slice_splice_disjoint; destruct Hs, Hvs; [lia|].
    assert (field t j = Some (oj, ftj)) as Hfj by (unfold field; now rewrite E).
    specialize (Ha j i oj ftj o ft Hne Hfj Hf). lia. }
  assert (nth_error fs i = Some (o, ft)) as Hi by (unfold field in Hf; now rewrite E in Hf).
  assert (slice o (sizeof ft) (splice o v b) = v) as Hsame by (apply slice_splice_same; destruct Hs, Hvs; [auto|lia]).
  split.
  - apply (valid_fields t fs _ E). split; [now apply (sized_splice o (sizeof ft))|].
    apply (valid_fields t fs b E) in Hv as [_ Hall]. rewrite Forall_forall in *. intros [oj ftj] Hin.
    cbn [fst snd]. apply In_nth_error in Hin as [j Hj]. destruct (Nat.eq_dec j i) as [->|Hne].
    + rewrite Hi in Hj. injection Hj as <- <-. now rewrite Hsame.
    + rewrite (Hother j oj ftj Hj Hne). apply (Hall _ (nth_error_In _ _ Hj)).
  - rewrite (decode_fields t fs b E) in Hd. injection Hd as <-. rewrite (decode_fields t fs _ E). f_equal.
    apply nth_error_ext. intros j. rewrite nth_error_put.
    2:{ rewrite map_length. apply nth_error_Some. congruence. }
    rewrite !nth_error_map. destruct (Nat.eqb_spec j i) as [->|Hne].
    + rewrite Hi. cbn [option_map fst snd]. now rewrite Hsame.
    + destruct (nth_error fs j) as [[oj ftj]|] eqn:Hj; [|reflexivity]. cbn [option_map fst snd].
      now rewrite (Hother j oj ftj Hj Hne).
Qed.

(** * Paths *)
Lemma option_decode t b : valid (TOption t) b ->
  (opt_has_value t b = Ok false /\ decode (TOption t) b = VNone) \/
  (opt_has_value t b = Ok true /\ opt_get t b = Ok (slice 0 (sizeof t) b) /\ valid t (slice 0 (sizeof t) b) /\
   decode (TOption t) b = VSome (decode t (slice 0 (sizeof t) b))).
Proof.
  intros Hv. pose proof Hv as [_ [H|[H H']]].
  - left. split; [exact H|]. cbn [decode]. now rewrite H.
  - right. split; [exact H|]. unfold opt_get. cbn [decode]. rewrite H. auto.
Qed.

Lemma ty_at_wf p : forall u t, wf u -> ty_at p u = Some t -> wf t.
Proof.
  induction p as [|[|i] p IH]; intros u t Hw H; cbn [ty_at] in H.
  - now injection H as <-.
  - destruct u; try discriminate. apply (IH u); [apply Hw|exact H].
  - destruct (field u i) as [[o ft]|] eqn:E; [|discriminate]. apply (IH ft); [|exact H]. eapply field_wf; eassumption.
Qed.

Lemma read_path_ok p : forall u b t, valid u b -> ty_at p u = Some t ->
  match vget p (decode u b) with
  | Some w => exists c, read_path p u b = Ok c /\ valid t c /\ decode t c = w
  | None => read_path p u b = Verify
  end.
Proof.
  induction p as [|[|i] p IH]; intros u b t Hv Ht; cbn [ty_at vget read_path] in *.
  - injection Ht as <-. eauto.
  - destruct u; try discriminate. destruct (option_decode u b Hv) as [[H1 H2]|(H1 & H2 & H3 & H4)].
    + rewrite H2. unfold opt_get. rewrite H1. reflexivity.
    + rewrite H4, H2. cbn [rbind]. now apply IH.
  - destruct (field u i) as [[o ft]|] eqn:E; [|discriminate].
    destruct (field_decode u i o ft b E) as [vs [-> ->]]. apply IH; [|exact Ht]. eapply field_valid; eassumption.
Qed.

Lemma update_path_stop p : forall u b t f, valid u b -> ty_at p u = Some t ->
  vget p (decode u b) = None -> update_path p u f b = Verify.
Proof.
  induction p as [|[|i] p IH]; intros u b t f Hv Ht; cbn [ty_at vget update_path] in *.
  - discriminate.
  - destruct u; try discriminate. destruct (option_decode u b Hv) as [[H1 H2]|(H1 & H2 & H3 & H4)].
    + intros _. unfold opt_get. rewrite H1. reflexivity.
    + rewrite H4, H2. cbn [rbind]. intros H. now rewrite (IH _ _ t f H3 Ht H).
  - destruct (field u i) as [[o ft]|] eqn:E; [|discriminate].
    destruct (field_decode u i o ft b E) as [vs [-> ->]]. intros H.
    rewrite (IH ft _ t f (field_valid _ _ _ _ _ Hv E) Ht H). reflexivity.
Qed.

Lemma update_path_ok p : forall u b t f w w', wf u -> valid u b -> ty_at p u = Some t -> clear_path p u ->
  vget p (decode u b) = Some w ->
  (forall c, valid t c -> decode t c = w -> exists c', f c = Ok c' /\ valid t c' /\ decode t c' = w') ->
  exists b', update_path p u f b = Ok b' /\ valid u b' /\ decode u b' = vset p w' (decode u b).
Proof.
  induction p as [|[|i] p IH]; intros u b t f w w' Hw Hv Ht Hc Hg Hf; cbn [ty_at vget update_path vset clear_path] in *.
  - injection Ht as <-. injection Hg as Hg. destruct (Hf b Hv Hg) as (c' & H1 & H2 & H3). eauto.
  - destruct u; try discriminate. destruct (option_decode u b Hv) as [[H1 H2]|(H1 & H2 & H3 & H4)].
    + rewrite H2 in Hg. discriminate.
    + rewrite H4 in *. rewrite H2. cbn [rbind].
      destruct (IH u _ t f w w' (proj1 Hw) H3 Ht Hc Hg Hf) as (b' & E & Hb & Hd). rewrite E. cbn [rbind].
      destruct (opt_put_ok u b' b Hw Hb (valid_sized _ b Hv) H1) as (P1 & _ & _ & P4).
      eexists. split; [reflexivity|]. split; [exact P1|]. now rewrite P4, Hd.
  - destruct (field u i) as [[o ft]|] eqn:E; [|discriminate]. destruct Hc as [Ha Hc].
    destruct (field_decode u i o ft b E) as [vs [Hd Hn]]. rewrite Hd, Hn in *.
    destruct (IH ft _ t f w w' (proj1 (field_wf _ _ _ _ Hw E)) (field_valid _ _ _ _ _ Hv E) Ht Hc Hg Hf) as (b' & E' & Hb & Hd').
    rewrite E'. cbn [rbind]. destruct (field_put u i o ft b b' vs Hw Ha E Hv Hb Hd) as [P1 P2].
    eexists. split; [reflexivity|]. split; [exact P1|]. now rewrite P2, Hd'.
Qed.

(** * Paths to different places of one type *)
Lemma vget_vset_same p : forall v x w, vget p v = Some w -> vget p (vset p x v) = Some x.
Proof.
  induction p as [|[|i] p IH]; intros v x w H; cbn [vget vset] in *.
  - reflexivity.
  - destruct v; try discriminate. cbn. eapply IH, H.
  - destruct v as [|vs| | |]; try discriminate. destruct (nth_error vs i) as [y|] eqn:E; [|discriminate]. cbn [vget].
    rewrite nth_error_put by (apply nth_error_Some; congruence). rewrite Nat.eqb_refl. eapply IH, H.
Qed.

(** A type is not a part of itself. *)
Fixpoint depth (t : ty) : nat :=
  match t with
  | TComplex t | TArray _ t | TMember _ t _ _ | TEnforce t | TOption t => S (depth t)
  | TPair _ t1 _ t2 _ _ => S (Nat.max (depth t1) (depth t2))
  | TTuple fs _ _ => S (fold_right (fun f n => Nat.max (depth (snd f)) n) 0%nat fs)
  | _ => 0%nat
  end.

Lemma field_depth t i o ft : field t i = Some (o, ft) -> (depth ft < depth t)%nat.
Proof.
  unfold field. destruct t; cbn [fields]; try discriminate; cbn [depth].
  - intros H. apply nth_error_In in H. cbn in H. destruct H as [H|[H|[]]]; injection H as <- <-; lia.
  - intros H. apply nth_error_In in H. cbn in H. destruct H as [H|[H|[]]]; injection H as <- <-; lia.
  - intros H. apply nth_error_In in H. induction fs as [|[o' f'] fs IH]; [destruct H|]. cbn [fold_right snd].
    destruct H as [H|H]; [injection H as <- <-; lia|]. specialize (IH H). lia.
  - intros H. apply nth_error_In, in_map_iff in H as [j [H _]]. injection H as <- <-. lia.
Qed.

Lemma ty_at_depth p : forall u t, ty_at p u = Some t -> (length p + depth t <= depth u)%nat.
Proof.
  induction p as [|[|i] p IH]; intros u t H; cbn [ty_at length] in *.
  - injection H as <-. lia.
  - destruct u; try discriminate. apply IH in H. cbn [depth]. lia.
  - destruct (field u i) as [[o ft]|] eqn:E; [|discriminate]. apply IH in H. apply field_depth in E. lia.
Qed.

Lemma vget_vset_other p : forall q u t v x, ty_at p u = Some t -> ty_at q u = Some t -> p <> q ->
  vget p (vset q x v) = vget p v.
Proof.
  induction p as [|h p IH]; intros [|h' q] u t v x Hp Hq Hne.
  - congruence.
  - apply ty_at_depth in Hq. cbn in Hp, Hq. injection Hp as ->. lia.
  - apply ty_at_depth in Hp. cbn in Hp, Hq. injection Hq as ->. lia.
  - destruct h as [|i], h' as [|j]; cbn [ty_at vget vset] in *.
    + destruct u; try discriminate. destruct v; try reflexivity. apply (IH q u t); congruence.
    + destruct u; discriminate.
    + destruct u; discriminate.
    + destruct (field u i) as [[o ft]|] eqn:Ei; [|discriminate]. destruct (field u j) as [[o' ft']|] eqn:Ej; [|discriminate].
      destruct v as [|vs| | |]; try reflexivity. destruct (nth_error vs j) as [y|] eqn:En; [|reflexivity].
      rewrite nth_error_put by (apply nth_error_Some; congruence). destruct (Nat.eqb_spec i j) as [->|Hij]; [|reflexivity].
      rewrite En. apply (IH q ft t); congruence.
Qed.

(** * Memory *)
Section Memory.
Context (k : ty -> triviality) (env : list (nat * ty)) (n : nat).
Context (Hlay : laid_out env n).

(** Only bytes of variables change. *)
Definition kept (m m' : bytes) : Prop := forall i, elsewhere env i -> nth_error m' i = nth_error m i.

Lemma kept_refl m : kept m m.
Proof. intros i _. reflexivity. Qed.
Lemma kept_trans m1 m2 m3 : kept m1 m2 -> kept m2 m3 -> kept m1 m3.
Proof. intros H1 H2 i Hi. rewrite (H2 i Hi). now apply H1. Qed.

(** Writing the bytes of one variable. *)
Lemma splice_ok m a x o u b v : sized n m -> represents env m a -> nth_error env x = Some (o, u) ->
  valid u b -> decode u b = v ->
  sized n (splice o b m) /\ represents env (splice o b m) (put a x (Some v)) /\ kept m (splice o b m).
Proof.
  intros Hm [Hlen Hr] Hx Hb Hd. destruct Hlay as [Hin Hdis]. destruct (Hin x o u Hx) as [Hw Hle].
  pose proof (valid_sized u b Hb) as Hbs. split; [|split].
  - now apply (sized_splice o (sizeof u)).
  - split; [now rewrite put_length|]. intros y o' u' v' Hy Hv.
    rewrite nth_error_put in Hv by (rewrite Hlen; apply nth_error_Some; congruence).
    destruct (Nat.eqb_spec y x) as [->|Hne].
    + rewrite Hx in Hy. injection Hy as <- <-. injection Hv as <-.
      rewrite slice_splice_same by (destruct Hm, Hbs; auto; lia). auto.
    + rewrite slice_splice_disjoint; [now apply (Hr y)|destruct Hm, Hbs; lia|].
      specialize (Hdis x y o u o' u' (not_eq_sym Hne) Hx Hy). destruct Hbs; lia.
  - intros i Hi. specialize (Hi x o u Hx). apply splice_frame; destruct Hm, Hbs; lia.
Qed.

Lemma update_ok m a p t f v w w' : sized n m -> represents env m a ->
  clear_place env p -> place_ty env p = Some t ->
  nth_error a (fst p) = Some (Some v) -> vget (snd p) v = Some w ->
  (forall c, valid t c -> decode t c = w -> exists c', f c = Ok c' /\ valid t c' /\ decode t c' = w') ->
  exists m', update env p f m = Ok m' /\ sized n m' /\ represents env m' (write a p w') /\ kept m m'.
Proof.
  intros Hm Hr Hc Ht Hv Hg Hf. unfold update, clear_place, place_ty, write in *. rewrite Hv.
  destruct (nth_error env (fst p)) as [[o u]|] eqn:Hx; [|discriminate].
  destruct (proj2 Hr _ _ _ _ Hx Hv) as [Hvu Hd]. subst v.
  destruct (update_path_ok (snd p) u _ t f w w' (proj1 (proj1 Hlay _ _ _ Hx)) Hvu Ht Hc Hg Hf) as (b' & E & Hb & Hd).
  rewrite E. cbn [rbind]. eexists. split; [reflexivity|]. now apply (splice_ok m a (fst p) o u b').
Qed.

Lemma update_stop m a p t f v : represents env m a -> place_ty env p = Some t ->
  nth_error a (fst p) = Some (Some v) -> vget (snd p) v = None -> update env p f m = Verify.
Proof.
  intros Hr Ht Hv Hg. unfold update, place_ty in *.
  destruct (nth_error env (fst p)) as [[o u]|] eqn:Hx; [|discriminate].
  destruct (proj2 Hr _ _ _ _ Hx Hv) as [Hvu Hd]. subst v.
  now rewrite (update_path_stop (snd p) u _ t f Hvu Ht Hg).
Qed.

Lemma read_ok m a p t v : represents env m a -> place_ty env p = Some t ->
  nth_error a (fst p) = Some (Some v) ->
  match vget (snd p) v with
  | Some w => exists c, read env p m = Ok c /\ valid t c /\ decode t c = w
  | None => read env p m = Verify
  end.
Proof.
  intros Hr Ht Hv. unfold read, place_ty in *.
  destruct (nth_error env (fst p)) as [[o u]|] eqn:Hx; [|discriminate].
  destruct (proj2 Hr _ _ _ _ Hx Hv) as [Hvu Hd]. subst v. now apply read_path_ok.
Qed.

(** Creating a variable. *)
Lemma create_ok m a x t f w : sized n m -> represents env m a -> place_ty env (x, []) = Some t ->
  (forall c, sized (sizeof t) c -> exists c', f c = Ok c' /\ valid t c' /\ decode t c' = w) ->
  exists m', update env (x, []) f m = Ok m' /\ sized n m' /\ represents env m' (put a x (Some w)) /\ kept m m'.
Proof.
  intros Hm Hr Ht Hf. unfold update, place_ty in *. cbn [fst snd ty_at update_path] in *.
  destruct (nth_error env x) as [[o u]|] eqn:Hx; [|discriminate]. injection Ht as ->.
  destruct (proj1 Hlay _ _ _ Hx) as [Hw Hle].
  destruct (Hf (slice o (sizeof t) m)) as (c' & E & Hv & Hd).
  { apply (sized_slice o _ n); [exact Hm|lia]. }
  rewrite E. cbn [rbind]. eexists. split; [reflexivity|]. now apply (splice_ok m a x o t c').
Qed.

Lemma place_wf p t : place_ty env p = Some t -> wf t.
Proof.
  unfold place_ty. destruct (nth_error env (fst p)) as [[o u]|] eqn:Hx; [|discriminate].
  apply ty_at_wf. apply (proj1 Hlay _ _ _ Hx).
Qed.

(** What a step achieves. *)
Definition refines (m : bytes) (r : res (bytes * option obs)) (s : sres) : Prop :=
  match s with
  | SDone a' e => exists m', r = Ok (m', e) /\ sized n m' /\ represents env m' a' /\ kept m m'
  | SStop => r = Verify
  | SWrong => True
  end.

Lemma refines_ok m r a' : (exists m', r = Ok m' /\ sized n m' /\ represents env m' a' /\ kept m m') ->
  refines m (no_obs r) (SDone a' None).
Proof. intros (m' & -> & H). cbn. eauto. Qed.

Lemma on_option_eq p t f m : place_ty env p = Some (TOption t) -> on_option env p f m = update env p (f t) m.
Proof. intros H. unfold on_option. now rewrite H. Qed.

(** A call on one option. *)
Lemma member_ok m a p t (f : ty -> bytes -> res bytes) (g : val -> sres) : sized n m -> represents env m a ->
  is_option env p t ->
  (forall w, exists w', g w = SDone (write a p w') None /\
    forall c, valid (TOption t) c -> decode (TOption t) c = w ->
      exists c', f t c = Ok c' /\ valid (TOption t) c' /\ decode (TOption t) c' = w') ->
  refines m (no_obs (on_option env p f m)) (found a p g).
Proof.
  intros Hm Hr [Hc Ht] Hf. rewrite (on_option_eq p t f m Ht). unfold found.
  destruct (nth_error a (fst p)) as [[v|]|] eqn:Hv; try exact I. destruct (vget (snd p) v) as [w|] eqn:Hg.
  - destruct (Hf w) as (w' & -> & H). apply refines_ok. now apply (update_ok m a p (TOption t) (f t) v w w').
  - cbn. now rewrite (update_stop m a p (TOption t) (f t) v Hr Ht Hv Hg).
Qed.

Lemma write_same a p v w : nth_error a (fst p) = Some (Some v) -> vget (snd p) v = Some w -> write a p w = a.
Proof.
  assert (forall q v w, vget q v = Some w -> vset q w v = v) as Hs.
  { induction q as [|[|i] q IH]; intros v0 w0 H; cbn [vget vset] in *.
    - congruence.
    - destruct v0; try discriminate. now rewrite (IH _ _ H).
    - destruct v0 as [|vs| | |]; try discriminate. destruct (nth_error vs i) as [y|] eqn:E; [|discriminate].
      rewrite (IH _ _ H). f_equal. apply nth_error_ext. intros j. rewrite nth_error_put by (apply nth_error_Some; congruence).
      destruct (Nat.eqb_spec j i) as [->|]; congruence. }
  intros Hv Hg. unfold write. rewrite Hv, (Hs _ _ _ Hg). apply nth_error_ext. intros j.
  rewrite nth_error_put by (apply nth_error_Some; congruence). destruct (Nat.eqb_spec j (fst p)) as [->|]; congruence.
Qed.

Lemma inner_eq p t : place_ty env p = Some (TOption t) -> inner env p = t.
Proof. intros H. unfold inner. now rewrite H. Qed.
Lemma outer_eq p t : place_ty env p = Some t -> outer env p = t.
Proof. intros H. unfold outer. now rewrite H. Qed.

(** Copies. *)
Lemma same_decode t a b : same_state t a b -> valid (TOption t) b /\ decode (TOption t) b = decode (TOption t) a.
Proof. intros (H1 & _ & H2 & _). auto. Qed.

Lemma copy_ctor_ok t src b : wf (TOption t) -> valid (TOption t) src -> sized (sizeof (TOption t)) b ->
  exists c, copy_ctor k t src b = Ok c /\ valid (TOption t) c /\ decode (TOption t) c = decode (TOption t) src.
Proof.
  intros Hw Hs Hb. unfold copy_ctor. destruct (t_tcc (k t)); [eauto|].
  destruct (opt_copy_ok t src b Hw Hs Hb) as (c & E & H). apply same_decode in H. eauto.
Qed.

Lemma take_result_ok t src b : wf (TOption t) -> valid (TOption t) src -> sized (sizeof (TOption t)) b ->
  exists c, take_result k t src b = Ok c /\ valid (TOption t) c /\ decode (TOption t) c = decode (TOption t) src.
Proof.
  intros Hw Hs Hb. unfold take_result. destruct (t_tmc (k t)); [eauto|].
  destruct (opt_copy_ok t src b Hw Hs Hb) as (c & E & H). apply same_decode in H. eauto.
Qed.

Lemma copy_assign_ok t src b : wf (TOption t) -> valid (TOption t) src -> valid (TOption t) b ->
  exists c, copy_assign k t src b = Ok c /\ valid (TOption t) c /\ decode (TOption t) c = decode (TOption t) src.
Proof.
  intros Hw Hs Hb. unfold copy_assign. destruct (_ && _); [eauto|].
  destruct (opt_assign_ok (t_td (k t)) t src b Hw Hs Hb) as (c & E & H). apply same_decode in H. eauto.
Qed.

Lemma reset_val td t b : wf (TOption t) -> valid (TOption t) b ->
  exists c, opt_reset td t b = Ok c /\ valid (TOption t) c /\ decode (TOption t) c = VNone.
Proof.
  intros Hw Hb. destruct (opt_reset_ok td t b Hw (valid_sized _ _ Hb)) as (c & E & (H1 & _ & H2)).
  - intros _. now apply valid_has_value.
  - eauto.
Qed.

Lemma holds_val t v (r : res bytes) : (exists b, r = Ok b /\ holds t v b) ->
  exists c, r = Ok c /\ valid (TOption t) c /\ decode (TOption t) c = VSome (decode t v).
Proof. intros (b & -> & (H1 & _ & _ & H2)). eauto. Qed.

Theorem bstep_ok o m a : sized n m -> represents env m a -> typed env o ->
  refines m (bstep k env o m) (sstep (meaning env o) a).
Proof.
  intros Hm Hr Ht. destruct o as [x [v|]|x v|x q|x q|x|p|p v|p v|p v|p q|p q|p v|p|p]; cbn [typed meaning sstep bstep option_map] in *.
  - destruct Ht as (t & [Hc Ht] & Hv). unfold declare. destruct (nth_error a x) as [[|]|] eqn:Ex; try exact I.
    rewrite (inner_eq _ _ Ht), (on_option_eq _ _ _ _ Ht). apply refines_ok. apply (create_ok m a x (TOption t)); try assumption.
    intros c Hcs. apply holds_val. apply opt_construct_ok; [eapply place_wf; eassumption|exact Hv|exact Hcs].
  - destruct Ht as (t & [Hc Ht] & _). unfold declare. destruct (nth_error a x) as [[|]|] eqn:Ex; try exact I.
    rewrite (on_option_eq _ _ _ _ Ht). apply refines_ok. apply (create_ok m a x (TOption t)); try assumption.
    intros c Hcs. destruct (opt_default_ok t c (place_wf _ _ Ht) Hcs) as (c' & E & (H1 & _ & H2)). eauto.
  - destruct Ht as (t & Ht & Hv). unfold declare. destruct (nth_error a x) as [[|]|] eqn:Ex; try exact I.
    rewrite (outer_eq _ _ Ht). apply refines_ok. apply (create_ok m a x t); try assumption. intros c _. eauto.
  - destruct Ht as (t & [Hc Ht] & [Hcq Hq]). unfold declare. destruct (nth_error a x) as [[|]|] eqn:Ex; try exact I.
    unfold found. destruct (nth_error a (fst q)) as [[v|]|] eqn:Eq; try exact I.
    pose proof (read_ok m a q _ v Hr Hq Eq) as H. destruct (vget (snd q) v) as [w|] eqn:Eg.
    + destruct H as (c & E & Hv & Hd). rewrite E. cbn [rbind]. rewrite (on_option_eq _ _ _ _ Ht). apply refines_ok.
      apply (create_ok m a x (TOption t)); try assumption. intros b Hb. subst w.
      apply copy_ctor_ok; [eapply place_wf; eassumption|exact Hv|exact Hb].
    + cbn. now rewrite H.
  - destruct Ht as (t & [Hc Ht] & [Hcq Hq]). unfold declare. destruct (nth_error a x) as [[|]|] eqn:Ex; try exact I.
    unfold found. destruct (nth_error a (fst q)) as [[v|]|] eqn:Eq; try exact I.
    pose proof (read_ok m a q _ v Hr Hq Eq) as H. destruct (vget (snd q) v) as [w|] eqn:Eg.
    + destruct H as (c & E & Hv & Hd). rewrite E. cbn [rbind]. rewrite (on_option_eq _ _ _ _ Ht).
      destruct (create_ok m a x (TOption t) (take_result k t c) w Hm Hr Ht) as (m1 & E1 & Hm1 & Hr1 & Hk1).
      { intros b Hb. subst w. apply take_result_ok; [eapply place_wf; eassumption|exact Hv|exact Hb]. }
      rewrite E1. cbn [rbind]. rewrite (on_option_eq _ _ _ _ Hq).
      assert (fst q <> x) as Hne by congruence.
      destruct (update_ok m1 (put a x (Some w)) q (TOption t) (opt_reset (t_td (k t)) t) v w VNone Hm1 Hr1 Hcq Hq) as (m2 & E2 & Hm2 & Hr2 & Hk2).
      { rewrite nth_error_put by (apply nth_error_Some; congruence). apply Nat.eqb_neq in Hne. now rewrite Hne. }
      { exact Eg. }
      { intros b Hb _. apply reset_val; [eapply place_wf; eassumption|exact Hb]. }
      rewrite E2. exists m2. split; [reflexivity|]. split; [exact Hm2|]. split; [|eapply kept_trans; eassumption].
      replace (put (write a q VNone) x (Some w)) with (write (put a x (Some w)) q VNone); [exact Hr2|].
      unfold write. rewrite nth_error_put by (apply nth_error_Some; congruence). apply Nat.eqb_neq in Hne as Hne'. rewrite Hne', Eq.
      assert (x < length a)%nat by (apply nth_error_Some; congruence). assert (fst q < length a)%nat by (apply nth_error_Some; congruence).
      apply nth_error_ext. intros j. rewrite !nth_error_put by (rewrite ?put_length; assumption).
      destruct (Nat.eqb_spec j (fst q)), (Nat.eqb_spec j x); congruence.
    + cbn. now rewrite H.
  - destruct (nth_error a x) as [[v|]|] eqn:Ex; try exact I. exists m. split; [reflexivity|]. split; [exact Hm|]. split; [|apply kept_refl].
    split; [rewrite put_length; apply Hr|]. intros y o u v' Hy Hv.
    rewrite nth_error_put in Hv by (apply nth_error_Some; congruence). destruct (Nat.eqb y x); [discriminate|]. now apply (proj2 Hr y).
  - destruct Ht as (t & Ht). apply (member_ok m a p t); try assumption. intros w. eexists. split; [reflexivity|].
    intros c Hv _. apply reset_val; [eapply place_wf, Ht|exact Hv].
  - destruct Ht as (t & Ht & Hv). rewrite (inner_eq _ _ (proj2 Ht)). apply (member_ok m a p t); try assumption. intros w. eexists. split; [reflexivity|].
    intros c Hc _. apply holds_val. apply opt_assign_value_ok; [eapply place_wf, Ht|exact Hv|exact Hc].
  - destruct Ht as (t & Ht & Hv). rewrite (inner_eq _ _ (proj2 Ht)). apply (member_ok m a p t); try assumption. intros w. eexists. split; [reflexivity|].
    intros c Hc _. apply holds_val. apply opt_emplace_ok; [eapply place_wf, Ht|exact Hv|now apply valid_sized|].
    intros _. now apply valid_has_value.
  - destruct Ht as (t & [Hc Ht] & Hv). rewrite (inner_eq _ _ Ht). unfold found.
    destruct (nth_error a (fst p)) as [[v0|]|] eqn:Ev; try exact I. rewrite (on_option_eq p t _ m Ht).
    destruct (vget (snd p) v0) as [w|] eqn:Eg.
    + assert (exists w', match w with VNone => SDone (write a p (VSome (decode t v))) None | _ => SDone a None end = SDone (write a p w') None /\
        forall c, valid (TOption t) c -> decode (TOption t) c = w ->
          exists c', opt_try_emplace t v c = Ok c' /\ valid (TOption t) c' /\ decode (TOption t) c' = w') as (w' & -> & H).
      { assert (w = VNone \/ w <> VNone) as [->|Hn] by (destruct w; auto; right; discriminate).
        - exists (VSome (decode t v)). split; [reflexivity|]. intros c Hvc Hd.
          destruct (opt_try_emplace_ok t v c (place_wf _ _ Ht) Hv Hvc) as (c' & E & _ & H).
          destruct (option_decode t c Hvc) as [[H1 _]|(_ & _ & _ & H1)]; [|congruence].
          destruct (H H1) as (P1 & _ & _ & P2). eauto.
        - exists w. split; [rewrite (write_same a p v0 w Ev Eg); destruct w; congruence|]. intros c Hvc Hd.
          destruct (opt_try_emplace_ok t v c (place_wf _ _ Ht) Hv Hvc) as (c' & E & H & _).
          destruct (option_decode t c Hvc) as [[_ H1]|(H1 & _)]; [congruence|]. rewrite (H H1) in E. eauto. }
      apply refines_ok. now apply (update_ok m a p (TOption t) _ v0 w w').
    + cbn. now rewrite (update_stop m a p (TOption t) _ v0 Hr Ht Ev Eg).
  - destruct Ht as (t & Ht & [Hcq Hq]). unfold found at 1. destruct (nth_error a (fst q)) as [[v|]|] eqn:Eq; try exact I.
    pose proof (read_ok m a q _ v Hr Hq Eq) as H. destruct (vget (snd q) v) as [w|] eqn:Eg.
    + destruct H as (c & E & Hv & Hd). rewrite E. cbn [rbind]. apply (member_ok m a p t); try assumption. intros w0. eexists. split; [reflexivity|].
      intros b Hb _. subst w. apply copy_assign_ok; [eapply place_wf, Ht|exact Hv|exact Hb].
    + cbn. now rewrite H.
  - destruct Ht as (t & [Hc Ht] & [Hcq Hq]). rewrite Ht. unfold found. destruct (nth_error a (fst q)) as [[v|]|] eqn:Eq; try exact I.
    pose proof (read_ok m a q _ v Hr Hq Eq) as H. destruct (vget (snd q) v) as [w|] eqn:Eg; [|cbn; now rewrite H].
    destruct H as (c & E & Hv & Hd). rewrite E. cbn [rbind].
    destruct (nth_error a (fst p)) as [[v0|]|] eqn:Ep; try exact I.
    pose proof (read_ok m a p _ v0 Hr Ht Ep) as H. destruct (vget (snd p) v0) as [w0|] eqn:Eg0; [|cbn; now rewrite H].
    destruct H as (b & E0 & Hv0 & Hd0). rewrite E0. cbn [rbind].
    destruct (opt_swap_ok (t_td (k t)) t b c (place_wf _ _ Ht) Hv0 Hv) as (b' & c' & Es & Hb & Hcc).
    apply same_decode in Hb as [Hb1 Hb2]. apply same_decode in Hcc as [Hc1 Hc2]. rewrite Es. cbn [rbind fst snd].
    destruct (update_ok m a q (TOption t) (fun _ => Ok c') v w w0 Hm Hr Hcq Hq Eq Eg) as (m1 & E1 & Hm1 & Hr1 & Hk1).
    { intros d _ _. exists c'. split; [reflexivity|]. split; [exact Hc1|]. congruence. }
    rewrite E1. cbn [rbind].
    assert (exists v1 w1, nth_error (write a q w0) (fst p) = Some (Some v1) /\ vget (snd p) v1 = Some w1) as (v1 & w1 & Hv1 & Hw1).
    { unfold write. rewrite Eq. rewrite nth_error_put by (apply nth_error_Some; congruence).
      destruct (Nat.eqb_spec (fst p) (fst q)) as [Hpq|Hpq]; [|eauto]. eexists. 
      destruct (list_eq_dec (fun x y : hop => ltac:(decide equality; apply Nat.eq_dec) : {x = y} + {x <> y}) (snd p) (snd q)) as [Hs|Hs].
      - exists w0. split; [reflexivity|]. rewrite Hs. eapply vget_vset_same, Eg.
      - exists w0. split; [reflexivity|]. unfold place_ty in Ht, Hq. rewrite Hpq in Ht, Ep.
        destruct (nth_error env (fst q)) as [[o u]|]; [|discriminate].
        rewrite (vget_vset_other (snd p) (snd q) u (TOption t) v w0 Ht Hq Hs). congruence. }
    destruct (update_ok m1 (write a q w0) p (TOption t) (fun _ => Ok b') v1 w1 w Hm1 Hr1 Hc Ht Hv1 Hw1) as (m2 & E2 & Hm2 & Hr2 & Hk2).
    { intros d _ _. exists b'. split; [reflexivity|]. split; [exact Hb1|]. congruence. }
    rewrite E2. exists m2. split; [reflexivity|]. split; [exact Hm2|]. split; [exact Hr2|]. eapply kept_trans; eassumption.
  - destruct Ht as (t & Hc & Ht & Hv). rewrite (outer_eq _ _ Ht). unfold found.
    destruct (nth_error a (fst p)) as [[v0|]|] eqn:Ev; try exact I. destruct (vget (snd p) v0) as [w|] eqn:Eg.
    + apply refines_ok. apply (update_ok m a p t _ v0 w); try assumption. intros c _ _. eauto.
    + cbn. now rewrite (update_stop m a p t _ v0 Hr Ht Ev Eg).
  - destruct Ht as (t & [Hc Ht]). rewrite Ht. unfold found. destruct (nth_error a (fst p)) as [[v|]|] eqn:Ev; try exact I.
    pose proof (read_ok m a p _ v Hr Ht Ev) as H. destruct (vget (snd p) v) as [w|] eqn:Eg; [|cbn; now rewrite H].
    destruct H as (c & E & Hv & Hd). rewrite E. cbn [rbind].
    destruct (option_decode t c Hv) as [[H1 H2]|(H1 & H2 & H3 & H4)]; rewrite H1; cbn [rbind]; exists m.
    + rewrite <- Hd, H2. auto using kept_refl.
    + rewrite <- Hd, H4. auto using kept_refl.
  - destruct Ht as (t & [Hc Ht]). rewrite Ht. unfold found. destruct (nth_error a (fst p)) as [[v|]|] eqn:Ev; try exact I.
    pose proof (read_ok m a p _ v Hr Ht Ev) as H. destruct (vget (snd p) v) as [w|] eqn:Eg; [|cbn; now rewrite H].
    destruct H as (c & E & Hv & Hd). rewrite E. cbn [rbind].
    destruct (option_decode t c Hv) as [[H1 H2]|(H1 & H2 & H3 & H4)].
    + rewrite <- Hd, H2. unfold opt_get. rewrite H1. reflexivity.
    + rewrite <- Hd, H4, H2. cbn [rbind]. exists m. auto using kept_refl.
Qed.

Theorem brun_ok os : forall m a, sized n m -> represents env m a -> Forall (typed env) os ->
  match srun (map (meaning env) os) a with
  | (tr, SDone a' _) => exists m', brun k env os m = (tr, Ok m') /\ sized n m' /\ represents env m' a' /\ kept m m'
  | (tr, SStop) => brun k env os m = (tr, Verify)
  | (_, SWrong) => True
  end.
Proof.
  induction os as [|o os IH]; intros m a Hm Hr Ht; cbn [map srun brun].
  - exists m. auto using kept_refl.
  - inversion Ht as [|? ? Ho Hos]; subst. pose proof (bstep_ok o m a Hm Hr Ho) as H.
    destruct (sstep (meaning env o) a) as [a1 e| |]; cbn [refines] in H; [|now rewrite H|exact I].
    destruct H as (m1 & -> & Hm1 & Hr1 & Hk1). specialize (IH m1 a1 Hm1 Hr1 Hos).
    destruct (srun (map (meaning env) os) a1) as [tr [a2 s| |]]; [|now rewrite IH|exact I].
    destruct IH as (m2 & -> & Hm2 & Hr2 & Hk2). exists m2. split; [reflexivity|]. split; [exact Hm2|]. split; [exact Hr2|].
    eapply kept_trans; eassumption.
Qed.
End Memory.

(** Nothing is declared at first, so any memory will do. *)
Lemma represents_start env m : represents env m (repeat None (length env)).
Proof.
  split; [apply repeat_length|]. intros x o u v _ H. apply nth_error_In, repeat_spec in H. discriminate.
Qed.
