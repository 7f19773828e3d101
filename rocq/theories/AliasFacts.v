(** Calls with references act as calls with values; the exact outcome of emplace given the contained object. *)
From Coq Require Import ZArith NArith List Bool Lia.
From Verif Require Import Outcome Words WordsFacts Ints Types OptBytes OptBytesFacts TypesSpec TypesFacts Lifetime History ByteClass ByteProg ByteProgSpec ByteProgFacts
  Alias AliasSpec.
Import ListNotations.
Open Scope nat_scope.
Open Scope res_scope.

(** * Addresses *)

Lemma splice_splice_in o1 n o2 c b : o2 + length c <= n -> o1 + n <= length b ->
  splice o1 (splice o2 c (slice o1 n b)) b = splice (o1 + o2) c b.
Proof.
  intros H1 H2. pose proof (slice_length o1 n b H2) as L.
  apply nth_error_ext. intros i.
  rewrite (nth_error_splice (o1 + o2)) by lia.
  rewrite nth_error_splice by (rewrite splice_length; lia).
  rewrite splice_length by lia. rewrite L.
  destruct (Nat.ltb_spec i o1), (Nat.ltb_spec i (o1 + o2)); try lia; try reflexivity.
  - destruct (Nat.ltb_spec i (o1 + n)); [|reflexivity]. rewrite nth_error_splice by lia.
    destruct (Nat.ltb_spec (i - o1) o2); [|lia]. rewrite nth_error_slice. destruct (Nat.ltb_spec (i - o1) n); [|lia]. f_equal. lia.
  - destruct (Nat.ltb_spec i (o1 + n)).
    + rewrite nth_error_splice by lia. destruct (Nat.ltb_spec (i - o1) o2); [lia|].
      destruct (Nat.ltb_spec (i - o1) (o2 + length c)), (Nat.ltb_spec i (o1 + o2 + length c)); try lia.
      * f_equal. lia.
      * rewrite nth_error_slice. destruct (Nat.ltb_spec (i - o1) n); [|lia]. f_equal. lia.
    + destruct (Nat.ltb_spec i (o1 + o2 + length c)); [lia|reflexivity].
Qed.

Fixpoint offset (p : path) (u : ty) : nat :=
  match p with
  | [] => 0
  | Deref :: p => match u with TOption t => offset p t | _ => 0 end
  | Field i :: p => match field u i with Some (o, t) => o + offset p t | None => 0 end
  end.

Lemma offset_in p : forall u t, wf u -> ty_at p u = Some t -> offset p u + sizeof t <= sizeof u.
Proof.
  induction p as [|[|i] p IH]; intros u t Hw H; cbn [ty_at offset] in *.
  - injection H as <-. lia.
  - destruct u; try discriminate. specialize (IH u t (proj1 Hw) H). pose proof (option_size_ge u (proj1 Hw)). lia.
  - destruct (field u i) as [[o ft]|] eqn:E; [|discriminate]. destruct (field_wf u i o ft Hw E) as (Hf & Hs). specialize (IH ft t Hf H). lia.
Qed.

Lemma path_addr p : forall u b t, wf u -> valid u b -> ty_at p u = Some t ->
  match vget p (decode u b) with
  | Some _ => addr_path p u b = Ok (offset p u) /\ read_path p u b = Ok (slice (offset p u) (sizeof t) b) /\
      forall f, (forall c, f (slice (offset p u) (sizeof t) b) = Ok c -> length c = sizeof t) ->
        update_path p u f b = let* c := f (slice (offset p u) (sizeof t) b) in Ok (splice (offset p u) c b)
  | None => addr_path p u b = Verify
  end.
Proof.
  induction p as [|[|i] p IH]; intros u b t Hw Hv Ht; cbn [ty_at vget addr_path read_path update_path offset] in *.
  - injection Ht as <-. pose proof (valid_sized _ _ Hv) as [Hl _]. rewrite slice_all by congruence.
    split; [reflexivity|]. split; [reflexivity|]. intros f Hf. destruct (f b) as [c| |]; cbn [rbind]; try reflexivity.
    rewrite splice_all; [reflexivity|]. rewrite (Hf c eq_refl). congruence.
  - destruct u; try discriminate. pose proof (option_size_ge u (proj1 Hw)) as Hge. pose proof (valid_sized _ _ Hv) as [Hl _].
    pose proof (offset_in p u t (proj1 Hw) Ht) as Ho.
    destruct (option_decode u b Hv) as [[H1 H2]|(H1 & H2 & H3 & H4)].
    + rewrite H2. unfold opt_get. rewrite H1. reflexivity.
    + rewrite H4, H2. cbn [rbind]. specialize (IH u _ t (proj1 Hw) H3 Ht). destruct (vget p (decode u (slice 0 (sizeof u) b))); [|exact IH].
      destruct IH as (A & B & C). split; [exact A|]. rewrite slice_slice in B, C by exact Ho. cbn [Nat.add] in *. split; [exact B|].
      intros f Hf. rewrite (C f Hf). destruct (f _) as [c| |] eqn:Ef; cbn [rbind]; try reflexivity.
      rewrite splice_splice_in; [reflexivity| |lia]. rewrite (Hf c eq_refl). exact Ho.
  - destruct (field u i) as [[o ft]|] eqn:E; [|discriminate]. destruct (field_wf u i o ft Hw E) as (Hwf & Hs).
    pose proof (offset_in p ft t Hwf Ht) as Ho. pose proof (valid_sized _ _ Hv) as [Hl _].
    destruct (field_decode u i o ft b E) as [vs [-> ->]].
    specialize (IH ft _ t Hwf (field_valid _ _ _ _ _ Hv E) Ht). destruct (vget p _); [|rewrite IH; reflexivity].
    destruct IH as (A & B & C). rewrite A. cbn [rbind]. rewrite slice_slice in B, C by exact Ho. split; [reflexivity|]. split; [exact B|].
    intros f Hf. rewrite (C f Hf). destruct (f _) as [c| |] eqn:Ef; cbn [rbind]; try reflexivity.
    rewrite splice_splice_in; [reflexivity| |lia]. rewrite (Hf c eq_refl). exact Ho.
Qed.

(** Objects of type T and option<T> are apart, unless the one is contained in the other. *)
Lemma offsets_apart t p : forall q u, wf u -> clear_path p u -> clear_path q u -> ty_at p u = Some (TOption t) -> ty_at q u = Some t ->
  q = p ++ [Deref] \/ offset p u + sizeof (TOption t) <= offset q u \/ offset q u + sizeof t <= offset p u.
Proof.
  induction p as [|h p IH]; intros q u Hw Hcp Hcq Hp Hq.
  - cbn in Hp. injection Hp as ->. destruct q as [|[|i] q]; cbn in Hq.
    + apply (f_equal (option_map depth)) in Hq. cbn in Hq. injection Hq as Hq. lia.
    + apply ty_at_depth in Hq. destruct q as [|h q]; [left; reflexivity|]. cbn in Hq. lia.
    + discriminate.
  - destruct q as [|h' q].
    + cbn in Hq. injection Hq as ->. apply ty_at_depth in Hp. cbn in Hp. lia.
    + destruct h as [|i], h' as [|j]; cbn [ty_at clear_path offset] in *.
      * destruct u; try discriminate. destruct (IH q u (proj1 Hw) Hcp Hcq Hp Hq) as [->|H]; auto.
      * destruct u; discriminate.
      * destruct u; discriminate.
      * destruct (field u i) as [[o ft]|] eqn:Ei; [|discriminate]. destruct (field u j) as [[o' ft']|] eqn:Ej; [|discriminate].
        destruct Hcp as (Ha & Hcp), Hcq as (_ & Hcq).
        destruct (field_wf u i o ft Hw Ei) as (Hw1 & _). destruct (field_wf u j o' ft' Hw Ej) as (Hw2 & _).
        destruct (Nat.eq_dec i j) as [<-|N].
        -- rewrite Ei in Ej. injection Ej as <- <-. destruct (IH q ft Hw1 Hcp Hcq Hp Hq) as [->|H]; [left; reflexivity|right; lia].
        -- right. pose proof (offset_in p ft _ Hw1 Hp). pose proof (offset_in q ft' _ Hw2 Hq).
           destruct (Ha i j o ft o' ft' N Ei Ej); lia.
Qed.
Lemma offset_app p : forall u t, ty_at p u = Some (TOption t) -> offset (p ++ [Deref]) u = offset p u.
Proof.
  induction p as [|[|i] p IH]; intros u t H; cbn [ty_at offset app] in *.
  - injection H as ->. reflexivity.
  - destruct u; try discriminate. eapply IH, H.
  - destruct (field u i) as [[o ft]|]; [|discriminate]. f_equal. eapply IH, H.
Qed.

Section Memory.
Context (k : ty -> triviality) (env : list (nat * ty)) (n : nat).
Context (Hlay : laid_out env n).

Definition base (p : place) : nat := match nth_error env (fst p) with Some (o, u) => o + offset (snd p) u | None => 0 end.

Lemma base_in p t : place_ty env p = Some t -> base p + sizeof t <= n.
Proof.
  unfold place_ty, base. destruct (nth_error env (fst p)) as [[o u]|] eqn:E; [|discriminate]. intros H.
  destruct (proj1 Hlay _ _ _ E) as (Hw & Hs). pose proof (offset_in _ u t Hw H). lia.
Qed.

Lemma place_addr m a p t v : sized n m -> represents env m a -> place_ty env p = Some t -> nth_error a (fst p) = Some (Some v) ->
  match vget (snd p) v with
  | Some w => addr env p m = Ok (base p) /\ read env p m = Ok (slice (base p) (sizeof t) m) /\
      valid t (slice (base p) (sizeof t) m) /\ decode t (slice (base p) (sizeof t) m) = w /\
      forall f, (forall c, f (slice (base p) (sizeof t) m) = Ok c -> length c = sizeof t) ->
        update env p f m = at_addr (base p) (sizeof t) f m
  | None => addr env p m = Verify
  end.
Proof.
  intros [Hm _] Hr Ht Hv. pose proof (read_ok env m a p t v Hr Ht Hv) as R.
  unfold addr, base, read, update, place_ty, at_addr in *. destruct (nth_error env (fst p)) as [[o u]|] eqn:E; [|discriminate].
  destruct (proj1 Hlay _ _ _ E) as (Hw & Hs). destruct (proj2 Hr _ _ _ _ E Hv) as (Hu & Hd).
  pose proof (path_addr (snd p) u _ t Hw Hu Ht) as P. rewrite Hd in P. pose proof (offset_in (snd p) u t Hw Ht) as Ho.
  destruct (vget (snd p) v) as [w|]; [|rewrite P; reflexivity]. destruct P as (A & B & C). rewrite A. cbn [rbind].
  rewrite slice_slice in B, C by exact Ho. split; [reflexivity|]. split; [exact B|].
  destruct R as (c & R & Rv & Rd). rewrite B in R. injection R as <-. split; [exact Rv|]. split; [exact Rd|].
  intros f Hf. rewrite (C f Hf). destruct (f _) as [c| |] eqn:Ef; cbn [rbind]; try reflexivity.
  rewrite splice_splice_in; [reflexivity| |lia]. rewrite (Hf c eq_refl). exact Ho.
Qed.

Lemma places_apart p q t : is_option env p t -> clear_place env q -> place_ty env q = Some t -> ~ contained_in p q ->
  base p + sizeof (TOption t) <= base q \/ base q + sizeof t <= base p.
Proof.
  intros (Hcp & Hp) Hcq Hq N. unfold place_ty, clear_place, base in *.
  destruct (nth_error env (fst p)) as [[o u]|] eqn:Ep; [|discriminate]. destruct (nth_error env (fst q)) as [[o' u']|] eqn:Eq; [|discriminate].
  destruct (proj1 Hlay _ _ _ Ep) as (Hw & Hs). destruct (proj1 Hlay _ _ _ Eq) as (Hw' & Hs').
  destruct (Nat.eq_dec (fst p) (fst q)) as [E|D].
  - rewrite E in Ep. rewrite Ep in Eq. injection Eq as <- <-.
    destruct (offsets_apart t (snd p) (snd q) u Hw Hcp Hcq Hp Hq) as [H|H]; [destruct N; split; auto|lia].
  - pose proof (offset_in _ _ _ Hw Hp). pose proof (offset_in _ _ _ Hw' Hq). destruct (proj2 Hlay _ _ _ _ _ _ D Ep Eq); lia.
Qed.
Lemma base_contained p q t : contained_in p q -> place_ty env p = Some (TOption t) -> base q = base p.
Proof.
  intros (E & F) Hp. unfold base, place_ty in *. rewrite E. destruct (nth_error env (fst p)) as [[o u]|]; [|discriminate].
  rewrite F, (offset_app _ _ _ Hp). reflexivity.
Qed.

(** * Calls *)

Lemma at_place m a p t v f : sized n m -> represents env m a -> is_option env p t -> nth_error a (fst p) = Some (Some v) ->
  (forall c, valid (TOption t) c -> exists c', f c = Ok c' /\ valid (TOption t) c') ->
  (let* o := addr env p m in at_addr o (sizeof (TOption t)) f m) = update env p f m.
Proof.
  intros Hm Hr (Hc & Ht) Hv Hf. pose proof (place_addr m a p _ v Hm Hr Ht Hv) as P. destruct (vget (snd p) v) as [w|] eqn:G.
  - destruct P as (A & _ & V & _ & U). rewrite A. cbn [rbind]. symmetry. apply U. intros c E. destruct (Hf _ V) as (c' & E' & V').
    rewrite E in E'. injection E' as <-. apply (valid_sized _ _ V').
  - rewrite P. symmetry. exact (update_stop env m a p _ f v Hr Ht Hv G).
Qed.

Lemma holds_exists t v r : (exists b, r = Ok b /\ holds t v b) -> exists c, r = Ok c /\ valid (TOption t) c.
Proof. intros (b & -> & (H & _)). eauto. Qed.

Lemma rstep_ok r m a : sized n m -> represents env m a -> rtyped env r -> refines env n m (rstep k env r m) (rsstep env r a).
Proof.
  intros Hm Hr Ht. destruct r as [o|x q|p q|p q|p q]; cbn [rstep rsstep rtyped] in *.
  - now apply bstep_ok.
  - destruct Ht as (t & Hx & Hcq & Hq). unfold declare. destruct (nth_error a x) as [[|]|] eqn:Ex; try exact I.
    unfold found. destruct (nth_error a (fst q)) as [[v|]|] eqn:Eq; try exact I.
    pose proof (place_addr m a q t v Hm Hr Hq Eq) as P. destruct (vget (snd q) v) as [w|] eqn:G; [|rewrite P; reflexivity].
    destruct P as (A & _ & V & D & _). rewrite A. cbn [rbind].
    pose proof (bstep_ok k env n Hlay (ONew x (Some (slice (base q) (sizeof t) m))) m a Hm Hr) as B.
    cbn [typed bstep meaning option_map] in B. specialize (B (ex_intro _ t (conj Hx V))). rewrite (inner_eq env _ _ (proj2 Hx)), D in B.
    rewrite (on_option_eq env (x, []) t _ m (proj2 Hx)). rewrite (on_option_eq env (x, []) t _ m (proj2 Hx)) in B. exact B.
  - destruct Ht as (t & Hp & Hcq & Hq). rewrite (proj2 Hp).
    unfold found at 1. destruct (nth_error a (fst q)) as [[v|]|] eqn:Eq; try exact I.
    pose proof (place_addr m a q t v Hm Hr Hq Eq) as P. destruct (vget (snd q) v) as [w|] eqn:G; [|rewrite P; reflexivity].
    destruct P as (A & _ & V & D & _). rewrite A. cbn [rbind].
    pose proof (bstep_ok k env n Hlay (OAssign p (slice (base q) (sizeof t) m)) m a Hm Hr) as B.
    cbn [typed bstep meaning] in B. specialize (B (ex_intro _ t (conj Hp V))). rewrite (inner_eq env _ _ (proj2 Hp)), D in B.
    cbn [sstep] in *. unfold found in *. destruct (nth_error a (fst p)) as [[v'|]|] eqn:Ep; try exact I.
    rewrite (at_place m a p t v'); try assumption; [now rewrite (on_option_eq env p t _ m (proj2 Hp)) in B|].
    intros c Hc. apply (holds_exists t (slice (base q) (sizeof t) m)).
    apply opt_assign_value_ok; [exact (place_wf env n Hlay _ _ (proj2 Hp))|exact V|exact Hc].
  - destruct Ht as (t & Hp & Hcq & Hq). rewrite (proj2 Hp). destruct (contained_in_dec p q) as [|N]; [exact I|].
    unfold found at 1. destruct (nth_error a (fst q)) as [[v|]|] eqn:Eq; try exact I.
    pose proof (place_addr m a q t v Hm Hr Hq Eq) as P. destruct (vget (snd q) v) as [w|] eqn:G; [|rewrite P; reflexivity].
    destruct P as (A & _ & V & D & _). rewrite A. cbn [rbind].
    pose proof (bstep_ok k env n Hlay (OEmplace p (slice (base q) (sizeof t) m)) m a Hm Hr) as B.
    cbn [typed bstep meaning] in B. specialize (B (ex_intro _ t (conj Hp V))). rewrite (inner_eq env _ _ (proj2 Hp)), D in B.
    cbn [sstep] in *. unfold found in *. destruct (nth_error a (fst p)) as [[v'|]|] eqn:Ep; try exact I.
    pose proof (place_wf env n Hlay _ _ (proj2 Hp)) as Hw.
    pose proof (place_addr m a p _ v' Hm Hr (proj2 Hp) Ep) as P. destruct (vget (snd p) v') as [w'|] eqn:G'; [|rewrite P; reflexivity].
    destruct P as (A' & _ & V' & D' & U'). rewrite A'. cbn [rbind].
    rewrite (on_option_eq env p t _ m (proj2 Hp)) in B. rewrite U' in B.
    2:{ intros c E. destruct (opt_emplace_ok (t_td (k t)) t _ _ Hw V (valid_sized _ _ V') (fun _ => valid_has_value _ _ V')) as (c' & E' & (H & _)).
        rewrite E in E'. injection E' as <-. apply (valid_sized _ _ H). }
    destruct (valid_has_value _ _ V') as (h & Eh). rewrite Eh. cbn [rbind].
    pose proof (places_apart p q t Hp Hcq Hq N) as Ha. pose proof (option_size_ge t (proj1 Hw)) as Hge.
    replace (overlap (sizeof t) (base q) (base p)) with false.
    2:{ unfold overlap. destruct (Nat.ltb_spec (base q) (base p + sizeof t)), (Nat.ltb_spec (base p) (base q + sizeof t)); cbn; lia. }
    rewrite andb_false_r. unfold at_addr in *. unfold opt_emplace in B.
    destruct (opt_reset_ok (t_td (k t)) t _ Hw (valid_sized _ _ V') (fun _ => valid_has_value _ _ V')) as (b1 & E1 & (V1 & _)).
    rewrite E1 in *. cbn [rbind] in *. pose proof (valid_sized _ _ V1) as [L1 _]. pose proof (base_in p _ (proj2 Hp)) as Bp. destruct Hm as (Lm & _).
    rewrite (slice_splice_disjoint (base p) b1 m (base q) (sizeof t)) by lia.
    rewrite slice_splice_same by lia.
    destruct (opt_construct_ok t _ b1 Hw V (valid_sized _ _ V1)) as (b2 & E2 & (V2 & _)). rewrite E2 in *. cbn [rbind] in *.
    pose proof (valid_sized _ _ V2) as [L2 _]. rewrite splice_splice_same by lia. exact B.
  - destruct Ht as (t & Hp & Hcq & Hq). rewrite (proj2 Hp).
    unfold found at 1. destruct (nth_error a (fst q)) as [[v|]|] eqn:Eq; try exact I.
    pose proof (place_addr m a q t v Hm Hr Hq Eq) as P. destruct (vget (snd q) v) as [w|] eqn:G; [|rewrite P; reflexivity].
    destruct P as (A & _ & V & D & _). rewrite A. cbn [rbind].
    pose proof (bstep_ok k env n Hlay (OTryEmplace p (slice (base q) (sizeof t) m)) m a Hm Hr) as B.
    cbn [typed bstep meaning] in B. specialize (B (ex_intro _ t (conj Hp V))). rewrite (inner_eq env _ _ (proj2 Hp)), D in B.
    cbn [sstep] in *. unfold found in *. destruct (nth_error a (fst p)) as [[v'|]|] eqn:Ep; try exact I.
    rewrite (at_place m a p t v'); try assumption; [now rewrite (on_option_eq env p t _ m (proj2 Hp)) in B|].
    intros c Hc. destruct (opt_try_emplace_ok t _ c (place_wf env n Hlay _ _ (proj2 Hp)) V Hc) as (c' & E & H1 & H2). exists c'. split; [exact E|].
    destruct (valid_has_value _ _ Hc) as ([|] & Eh); [rewrite (H1 Eh); exact Hc|apply (H2 Eh)].
Qed.

Lemma rrun_ok rs : forall m a, sized n m -> represents env m a -> Forall (rtyped env) rs ->
  match rsrun env rs a with
  | (tr, SDone a' _) => exists m', rrun k env rs m = (tr, Ok m') /\ sized n m' /\ represents env m' a' /\
      forall i, elsewhere env i -> nth_error m' i = nth_error m i
  | (tr, SStop) => rrun k env rs m = (tr, Verify)
  | (_, SWrong) => True
  end.
Proof.
  induction rs as [|r rs IH]; intros m a Hm Hr Ht; cbn [rsrun rrun].
  - exists m. auto.
  - inversion Ht as [|? ? Ho Hos]; subst. pose proof (rstep_ok r m a Hm Hr Ho) as H.
    destruct (rsstep env r a) as [a1 e| |]; cbn [refines] in H; [|now rewrite H|exact I].
    destruct H as (m1 & -> & Hm1 & Hr1 & Hk1). specialize (IH m1 a1 Hm1 Hr1 Hos).
    destruct (rsrun env rs a1) as [tr [a2 s| |]]; [|now rewrite IH|exact I].
    destruct IH as (m2 & -> & Hm2 & Hr2 & Hk2). exists m2. split; [reflexivity|]. split; [exact Hm2|]. split; [exact Hr2|].
    intros i Hi. rewrite (Hk2 i Hi). apply Hk1, Hi.
Qed.

(** * emplace given the contained object *)

Lemma emplace_own p q t m a v w : 0 < sizeof t -> sized n m -> represents env m a -> is_option env p t -> contained_in p q ->
  nth_error a (fst p) = Some (Some v) -> vget (snd p) v = Some (VSome w) ->
  if t_td (k t) then
    if (max_level t =? 0)%N then exists m', rstep k env (REmplace p q) m = Ok (m', None) /\ sized n m' /\ represents env m' a /\
      forall i, elsewhere env i -> nth_error m' i = nth_error m i
    else rstep k env (REmplace p q) m = Verify
  else rstep k env (REmplace p q) m = UB.
Proof.
  intros Hpos Hm Hr Hp Hc Ep Gp. cbn [rstep]. rewrite (proj2 Hp).
  pose proof (place_wf env n Hlay _ _ (proj2 Hp)) as Hw. pose proof (option_size_ge t (proj1 Hw)) as Hge.
  pose proof (place_addr m a p _ v Hm Hr (proj2 Hp) Ep) as P. rewrite Gp in P. destruct P as (A & _ & V & D & U).
  assert (Hq : addr env q m = Ok (base p)).
  { assert (place_ty env q = Some t).
    { destruct Hc as (E & F). destruct Hp as (_ & Hp). unfold place_ty in *. rewrite E, F. destruct (nth_error env (fst p)) as [[o u]|]; [|discriminate].
      clear -Hp. revert u Hp. induction (snd p) as [|[|i] l IH]; intros u H; cbn [ty_at app] in *.
      - injection H as ->. reflexivity.
      - destruct u; try discriminate. now apply IH.
      - destruct (field u i) as [[o ft]|]; [|discriminate]. now apply IH. }
    rewrite <- (base_contained p q t Hc (proj2 Hp)).
    pose proof (place_addr m a q t v Hm Hr H) as Q. rewrite (proj1 Hc) in Q. specialize (Q Ep).
    assert (G : vget (snd q) v = Some w).
    { rewrite (proj2 Hc). clear -Gp. revert v Gp. induction (snd p) as [|[|i] l IH]; intros v G; cbn [vget app] in *.
      - injection G as ->. reflexivity.
      - destruct v; try discriminate. now apply IH.
      - destruct v as [|vs| | |]; try discriminate. destruct (nth_error vs i); [|discriminate]. now apply IH. }
    rewrite G in Q. apply Q. }
  rewrite Hq, A. cbn [rbind]. destruct (option_decode t _ V) as [[H1 H2]|(H1 & H2 & H3 & H4)]; [congruence|]. rewrite H1. cbn [rbind].
  replace (overlap (sizeof t) (base p) (base p)) with true.
  2:{ unfold overlap. destruct (Nat.ltb_spec (base p) (base p + sizeof t)); [reflexivity|lia]. }
  destruct (t_td (k t)) eqn:Etd; cbn [negb andb]; [|reflexivity].
  pose proof (base_in p _ (proj2 Hp)) as Bp. destruct Hm as (Lm & Bm).
  destruct (opt_reset_ok true t _ Hw (valid_sized _ _ V) (fun _ => valid_has_value _ _ V)) as (b1 & E1 & (V1 & F1 & _)).
  unfold at_addr. rewrite E1. cbn [rbind]. pose proof (valid_sized _ _ V1) as [L1 _].
  assert (S1 : slice (base p) (sizeof (TOption t)) (splice (base p) b1 m) = b1) by (apply slice_splice_same; lia). rewrite S1.
  assert (S2 : slice (base p) (sizeof t) (splice (base p) b1 m) = slice 0 (sizeof t) b1).
  { rewrite <- S1 at 2. rewrite slice_slice by lia. f_equal. lia. }
  rewrite S2. destruct (N.eqb_spec (max_level t) 0) as [E0|E0].
  - assert (K : slice 0 (sizeof t) b1 = slice 0 (sizeof t) (slice (base p) (sizeof (TOption t)) m)).
    { unfold opt_reset in E1. rewrite E0 in E1. cbn [N.eqb] in E1. injection E1 as <-. unfold write_bool, write_word.
      pose proof (sizeof_flagged t (proj1 Hw) E0). pose proof (valid_sized _ _ V) as [L0 _]. apply slice_splice_disjoint; rewrite le_encode_length; lia. }
    rewrite K. destruct (opt_construct_ok t _ b1 Hw H3 (valid_sized _ _ V1)) as (b2 & E2 & (V2 & _ & _ & D2)). rewrite E2. cbn [rbind].
    pose proof (valid_sized _ _ V2) as [L2 _]. rewrite splice_splice_same by lia.
    pose proof (bstep_ok k env n Hlay (OEmplace p (slice 0 (sizeof t) (slice (base p) (sizeof (TOption t)) m))) m a (conj Lm Bm) Hr) as B.
    cbn [typed bstep meaning] in B. specialize (B (ex_intro _ t (conj Hp H3))). rewrite (inner_eq env _ _ (proj2 Hp)) in B.
    cbn [sstep] in B. unfold found in B. rewrite Ep, Gp in B.
    rewrite (on_option_eq env p t _ m (proj2 Hp)) in B. rewrite U in B.
    2:{ intros c E. destruct (opt_emplace_ok (t_td (k t)) t _ _ Hw H3 (valid_sized _ _ V) (fun _ => valid_has_value _ _ V)) as (c' & E' & (H & _)).
        rewrite E in E'. injection E' as <-. apply (valid_sized _ _ H). }
    unfold at_addr, opt_emplace in B. rewrite Etd, E1 in B. cbn [rbind] in B. rewrite E2 in B. cbn [rbind] in B.
    destruct B as (m' & B1 & B2 & B3 & B4). exists m'. split; [exact B1|]. split; [exact B2|]. split; [|exact B4].
    assert (Dw : decode t (slice 0 (sizeof t) (slice (base p) (sizeof (TOption t)) m)) = w) by congruence. rewrite Dw, (write_same a p v (VSome w) Ep Gp) in B3. exact B3.
  - unfold opt_construct. rewrite splice_slice_id by lia. rewrite (proj2 (N.eqb_neq _ _) E0), F1. reflexivity.
Qed.
End Memory.

From Verif Require Import LifetimeSpec LifetimeFacts.
(** In the lifetime layer, where the end of an object is seen, the argument is dead in every case. *)
Lemma emplace_self_undefined : forall W (C : cls W) (S : sem C), lawful C S -> forall c w, inv C S c ->
  match o_emplace_self C c w with
  | Undef => True
  | Abort => stops S
  | _ => False
  end.
Proof.
  intros W C S L c w Hi. unfold o_emplace_self. pose proof (reset_ok C S L c w Hi) as H.
  destruct (o_reset C c w) as [[c' w']|[c' w']| |]; cbn in *; auto. destruct H as (H1 & H2 & _). now rewrite H2.
Qed.
