(** Facts about programs on nested options (Layers). *)
From Coq Require Import ZArith NArith List Bool Lia ZifyBool ZifyNat ZifyN.
From Verif Require Import Outcome Words Types OptBytes TypesSpec TypesFacts OptBytesFacts ReprLemmas Layers LayersSpec.
Import ListNotations.
Open Scope list_scope.

(** Reading k layers down. *)
Lemma read_at_ok k i t b x : valid (nest (k + i) t) b -> decode (nest (k + i) t) b = somes k x ->
  exists c, read_at k (nest (k + i) t) b = Ok c /\ valid (nest i t) c /\ decode (nest i t) c = x.
Proof.
  revert b. induction k as [|k IH]; intros b Hb Hd.
  - exists b. auto.
  - cbn [Nat.add nest somes read_at] in *. cbn [decode] in Hd.
    destruct (opt_has_value (nest (k + i) t) b) as [[|]| |] eqn:Hh; try discriminate.
    injection Hd as Hd. cbn [rbind verify]. exact (IH _ (valid_engaged _ b Hb Hh) Hd).
Qed.
Lemma read_at_empty k i t j b : valid (nest (k + i) t) b -> decode (nest (k + i) t) b = somes j VNone -> (j < k)%nat ->
  read_at k (nest (k + i) t) b = Verify.
Proof.
  revert j b. induction k as [|k IH]; intros j b Hb Hd Hj; [lia|].
  cbn [Nat.add nest read_at] in *. cbn [decode] in Hd.
  destruct (valid_has_value (nest (k + i) t) b Hb) as [[|] Hh]; rewrite Hh in *; cbn [rbind verify]; [|reflexivity].
  destruct j as [|j]; [discriminate|]. cbn [somes] in Hd. injection Hd as Hd.
  apply (IH j _ (valid_engaged _ b Hb Hh) Hd). lia.
Qed.

Lemma somes_add k m x : somes (k + m) x = somes k (somes m x).
Proof. induction k; cbn; congruence. Qed.
Lemma wf_inner k i t : wf (nest (k + i) t) -> wf (nest i t).
Proof. induction k as [|k IH]; [auto|]. intros H. apply IH. apply wf_nest_le. exact H. Qed.

(** The state seen from k layers down. *)
Lemma in_state_split n t s b k : in_state n t s b -> (k <= engaged s)%nat ->
  decode (nest n t) b = somes k (somes (engaged s - k) (if (engaged s <? n)%nat then VNone else leaf s)).
Proof. intros (_ & _ & Hd) Hk. rewrite Hd, <- somes_add. f_equal. lia. Qed.

Lemma exec_ok td n t s b c : wf (nest n t) -> in_state n t s b -> compiles n c = true -> given t c ->
  match spec_step n t s c with
  | Some (s', o) => exists b' o', exec td n t c b = Ok (b', o') /\ in_state n t s' b' /\ map (observe t) o' = o
  | None => exec td n t c b = Verify
  end.
Proof.
  intros Hw Hs Hc Hg. pose proof Hs as (Hb & Hm & Hd). destruct c as [k|k v|k|]; cbn [spec_step compiles given exec] in *.
  - assert (Hn : n = (k + S (n - k - 1))%nat) by lia. set (i := (n - k - 1)%nat) in *. clearbody i.
    destruct (Nat.leb_spec k (engaged s)) as [Hk|Hk].
    + pose proof (in_state_split n t s b k Hs Hk) as Hd'. rewrite Hn in Hw, Hb, Hd'.
      destruct (l_C03_reset k i t td b _ Hw Hb Hd') as (b' & H1 & H2 & H3).
      exists b', []. rewrite Hn at 1. rewrite H1. split; [reflexivity|]. split; [|reflexivity].
      rewrite Hn. split; [exact H2|]. cbn [engaged leaf]. split; [lia|].
      destruct (Nat.ltb_spec k (k + S i)) as [_|]; [exact H3|lia].
    + destruct (Nat.ltb_spec (engaged s) n) as [_|]; [|lia]. rewrite Hn in Hb, Hd. rewrite Hn at 1.
      rewrite (access_layers k (S i) t (engaged s) _ b Hb Hd Hk). reflexivity.
  - assert (Hn : n = (k + S (n - k - 1))%nat) by lia. set (i := (n - k - 1)%nat) in *. clearbody i.
    destruct (Nat.leb_spec k (engaged s)) as [Hk|Hk].
    + pose proof (in_state_split n t s b k Hs Hk) as Hd'. rewrite Hn in Hw, Hb, Hd'.
      assert (Hwi : wf (nest (S i) t)) by exact (wf_inner k (S i) t Hw).
      assert (Hf : forall c, valid (nest (S i) t) c ->
                exists c', (let* w := build i t i v (slice 0 (sizeof (nest i t)) c) in opt_emplace td (nest i t) w c)%res = Ok c' /\
                  valid (nest (S i) t) c' /\ decode (nest (S i) t) c' = somes (S i) (decode t v)).
      { intros c Hcv. cbn [nest] in Hcv, Hwi |- *.
        assert (Hsz : sized (sizeof (nest i t)) (slice 0 (sizeof (nest i t)) c)).
        { apply (sized_slice 0 _ (sizeof (TOption (nest i t)))); [exact (valid_sized _ _ Hcv)|].
          pose proof (option_size_ge (nest i t) (proj1 Hwi)). lia. }
        destruct (build_ok i t i v _ (proj1 Hwi) (le_n i) Hg Hsz) as (w & E & Hv & Hdw).
        rewrite Nat.eqb_refl in Hdw.
        destruct (opt_emplace_ok td (nest i t) w c Hwi Hv (valid_sized _ _ Hcv)) as (c' & E' & Hv' & _ & _ & Hd2).
        - intros _. now apply valid_has_value.
        - exists c'. rewrite E. cbn [rbind]. split; [exact E'|]. split; [exact Hv'|].
          rewrite Hd2, Hdw. reflexivity. }
      destruct (update_at_ok k (S i) t _ b _ Hw Hb Hd'
                  (fun c Hcv _ => let '(ex_intro _ c' (conj E (conj V _))) := Hf c Hcv in ex_intro _ c' (conj E V)))
        as (c & c' & b' & H1 & H2 & H3 & H4 & H5 & H6).
      exists b', []. rewrite Hn at 1. rewrite H4. split; [reflexivity|]. split; [|reflexivity].
      destruct (Hf c H1) as (c2 & E & _ & Hd2). assert (c2 = c') as -> by congruence.
      rewrite Hn. split; [exact H5|]. cbn [engaged leaf]. split; [lia|].
      rewrite Nat.ltb_irrefl, H6, Hd2, <- somes_add. reflexivity.
    + destruct (Nat.ltb_spec (engaged s) n) as [_|]; [|lia]. rewrite Hn in Hb, Hd. rewrite Hn at 1.
      rewrite (access_layers k (S i) t (engaged s) _ b Hb Hd Hk). reflexivity.
  - assert (Hn : n = (k + S (n - k - 1))%nat) by lia. set (i := (n - k - 1)%nat) in *. clearbody i.
    destruct (Nat.leb_spec k (engaged s)) as [Hk|Hk].
    + pose proof (in_state_split n t s b k Hs Hk) as Hd'. rewrite Hn in Hb, Hd'.
      destruct (read_at_ok k (S i) t b _ Hb Hd') as (c & H1 & H2 & H3).
      cbn [nest] in H2. destruct (valid_has_value (nest i t) c H2) as [h Hh].
      exists b, [Has h]. rewrite Hn at 1. rewrite H1. cbn [rbind]. rewrite Hh. split; [reflexivity|]. split; [exact Hs|].
      cbn [map observe]. do 2 f_equal. cbn [nest decode] in H3. rewrite Hh in H3.
      destruct (Nat.ltb_spec k (engaged s)) as [Hlt|Hge].
      * replace (engaged s - k)%nat with (S (engaged s - k - 1)) in H3 by lia. destruct h; [reflexivity|discriminate].
      * replace (engaged s - k)%nat with 0%nat in H3 by lia.
        destruct (Nat.ltb_spec (engaged s) (k + S i)) as [_|]; [|lia]. destruct h; [discriminate|reflexivity].
    + destruct (Nat.ltb_spec (engaged s) n) as [_|]; [|lia]. rewrite Hn in Hb, Hd. rewrite Hn at 1.
      rewrite (read_at_empty k (S i) t (engaged s) b Hb Hd Hk). reflexivity.
  - assert (Hr : forall x, decode (nest n t) b = x -> decode (nest (n + 0) t) b = x) by (intros x; now rewrite Nat.add_0_r).
    assert (Hb0 : valid (nest (n + 0) t) b) by now rewrite Nat.add_0_r.
    destruct (Nat.eqb_spec (engaged s) n) as [E|E].
    + rewrite E, Nat.ltb_irrefl in Hd.
      destruct (read_at_ok n 0 t b (leaf s) Hb0 (Hr _ Hd)) as (c & H1 & H2 & H3). rewrite Nat.add_0_r in H1.
      exists b, [Bytes c]. rewrite H1. split; [reflexivity|]. split; [exact Hs|]. cbn [map observe nest] in *. now rewrite H3.
    + destruct (Nat.ltb_spec (engaged s) n) as [Hlt|]; [|lia].
      pose proof (read_at_empty n 0 t (engaged s) b Hb0 (Hr _ Hd) Hlt) as Hv. rewrite Nat.add_0_r in Hv. now rewrite Hv.
Qed.

Lemma run_ok td n t p : wf (nest n t) -> forallb (compiles n) p = true -> Forall (given t) p ->
  forall s b, in_state n t s b ->
  match spec_run n t s p with
  | Some (s', o) => exists b' o', run td n t p b = Ok (b', o') /\ in_state n t s' b' /\ map (observe t) o' = o
  | None => run td n t p b = Verify
  end.
Proof.
  intros Hw. induction p as [|c p IH]; intros Hc Hg s b Hs.
  - cbn. exists b, []. auto.
  - cbn [forallb] in Hc. apply andb_prop in Hc as [Hc1 Hc2]. inversion Hg as [|? ? Hg1 Hg2]; subst.
    pose proof (exec_ok td n t s b c Hw Hs Hc1 Hg1) as He. cbn [spec_run run].
    destruct (spec_step n t s c) as [[s1 o1]|]; [|now rewrite He].
    destruct He as (b1 & o1' & -> & Hs1 & <-). cbn [rbind fst snd].
    pose proof (IH Hc2 Hg2 s1 b1 Hs1) as Hr.
    destruct (spec_run n t s1 p) as [[s2 o2]|]; [|now rewrite Hr].
    destruct Hr as (b2 & o2' & -> & Hs2 & <-). exists b2, (o1' ++ o2'). cbn [rmap fst snd].
    split; [reflexivity|]. split; [exact Hs2|]. apply map_app.
Qed.

(** From the inside to the outside all layers may be emptied; n statements. *)
Lemma inside_out_spec n t k s : (k <= S (engaged s))%nat ->
  spec_run n t s (inside_out k) = Some (state (match k with O => engaged s | _ => 0%nat end) (leaf s), []).
Proof.
  revert s. induction k as [|k IH]; intros s Hk; cbn [inside_out spec_run].
  - now destruct s.
  - cbn [spec_step]. destruct (Nat.leb_spec k (engaged s)) as [H|]; [|lia].
    rewrite IH by (cbn; lia). cbn [engaged leaf app]. now destruct k.
Qed.
Lemma inside_out_compiles n k : (k <= n)%nat -> forallb (compiles n) (inside_out k) = true.
Proof. induction k as [|k IH]; intros H; [reflexivity|]. cbn. rewrite IH by lia. rewrite andb_true_r. apply Nat.ltb_lt. lia. Qed.
Lemma inside_out_given t k : Forall (given t) (inside_out k).
Proof. induction k; constructor; cbn; auto. Qed.

Lemma inside_out_ok td n t s b : (0 < n)%nat -> wf (nest n t) -> in_state n t s b -> (n <= S (engaged s))%nat ->
  exists b', run td n t (inside_out n) b = Ok (b', []) /\ in_state n t (state 0 (leaf s)) b'.
Proof.
  intros Hn Hw Hs He.
  pose proof (run_ok td n t (inside_out n) Hw (inside_out_compiles n n (le_n n)) (inside_out_given t n) s b Hs) as Hr.
  rewrite (inside_out_spec n t n s He) in Hr. destruct Hr as (b' & o & H1 & H2 & H3).
  destruct o; [|discriminate]. exists b'. split; [exact H1|]. destruct n; [lia|exact H2].
Qed.

(** A program that starts on an empty object has to fill it before it dereferences. *)
Lemma empty_first td n t b c p : wf (nest n t) -> in_state n t (state 0 VNone) b -> (0 < n)%nat ->
  forallb (compiles n) (c :: p) = true -> Forall (given t) (c :: p) ->
  match c with Reset (S _) | Emplace (S _) _ | HasValue (S _) | Value => True | _ => False end ->
  run td n t (c :: p) b = Verify.
Proof.
  intros Hw Hs Hn Hc Hg H. pose proof (run_ok td n t (c :: p) Hw Hc Hg _ b Hs) as Hr.
  cbn [spec_run] in Hr. assert (E : spec_step n t (state 0 VNone) c = None).
  { destruct c as [[|k]|[|k] v|[|k]|]; try contradiction; try reflexivity. destruct n; [lia|reflexivity]. }
  now rewrite E in Hr.
Qed.
