(** Which listing is selected, for every version. *)
From Coq Require Import PeanoNat NArith Bool List Permutation Ascii String Lia ZifyBool ZifyNat ZifyN.
From Verif Require Import PyText Codegen CodegenSample CodegenSpec.
Import ListNotations.
Open Scope N_scope.
Open Scope list_scope.

(** * The order of versions *)

Lemma vlt_before a b : vlt a b = true <-> before a b.
Proof.
  split.
  - revert b. induction a as [|x a IH]; intros [|y b] H; try discriminate; [constructor|].
    cbn [vlt] in H. apply orb_prop in H as [H|H].
    + apply before_here. lia.
    + apply andb_prop in H as [E H]. apply N.eqb_eq in E as <-. apply before_later, IH, H.
  - induction 1 as [| |x a b _ IH]; cbn [vlt]; [reflexivity| |rewrite N.eqb_refl, IH; apply orb_true_r].
    replace (x <? y) with true by lia. reflexivity.
Qed.
Lemma veq_true a b : veq a b = true <-> a = b.
Proof.
  split; [|intros <-; induction a as [|x a IH]; cbn; [reflexivity|rewrite N.eqb_refl; exact IH]].
  revert b. induction a as [|x a IH]; intros [|y b] H; try discriminate; [reflexivity|].
  cbn in H. apply andb_prop in H as [E H]. apply N.eqb_eq in E as <-. f_equal. apply IH, H.
Qed.
Lemma vlt_irrefl a : vlt a a = false.
Proof. induction a as [|x a IH]; cbn; [reflexivity|]. rewrite IH, andb_false_r. replace (x <? x) with false by lia. reflexivity. Qed.
Lemma vlt_trans a b c : vlt a b = true -> vlt b c = true -> vlt a c = true.
Proof.
  revert b c. induction a as [|x a IH]; intros [|y b] [|z c] H K; try discriminate; [reflexivity|].
  cbn [vlt] in *. apply orb_prop in H as [H|H]; apply orb_prop in K as [K|K].
  - replace (x <? z) with true by lia. reflexivity.
  - apply andb_prop in K as [E _]. replace (x <? z) with true by lia. reflexivity.
  - apply andb_prop in H as [E _]. replace (x <? z) with true by lia. reflexivity.
  - apply andb_prop in H as [E H]. apply andb_prop in K as [F K].
    rewrite (IH b c H K). replace (x =? z) with true by lia. apply orb_true_r.
Qed.
Lemma vlt_total a b : vlt a b = negb (vle b a).
Proof.
  unfold vle. revert b. induction a as [|x a IH]; intros [|y b]; try reflexivity.
  cbn [vlt veq]. rewrite IH. destruct (x <? y) eqn:E, (y <? x) eqn:F, (x =? y) eqn:G, (y =? x) eqn:G'; try lia; cbn; try reflexivity.
Qed.
Lemma vle_trans a b c : vle a b = true -> vle b c = true -> vle a c = true.
Proof.
  unfold vle. intros H K. apply orb_prop in H as [H|H]; apply orb_prop in K as [K|K].
  - rewrite (vlt_trans a b c H K). reflexivity.
  - apply veq_true in K as <-. rewrite H. reflexivity.
  - apply veq_true in H as <-. rewrite K. reflexivity.
  - apply veq_true in H as <-. rewrite K. apply orb_true_r.
Qed.
Lemma vle_refl a : vle a a = true.
Proof. unfold vle. replace (veq a a) with true by (symmetry; apply veq_true; reflexivity). apply orb_true_r. Qed.
Lemma vle_total a b : vle a b = false -> vle b a = true.
Proof.
  intros H. destruct (vle b a) eqn:E; [reflexivity|]. pose proof (vlt_total a b) as K. rewrite E in K.
  unfold vle in H. rewrite K in H. discriminate.
Qed.

(** The next version. *)
Lemma vlt_next a b : vlt a b = vle (a ++ [0]) b.
Proof.
  revert b. induction a as [|x a IH]; intros [|y b]; try reflexivity.
  - unfold vle. cbn. destruct y, b; reflexivity.
  - unfold vle in *. cbn [app vlt veq]. rewrite IH. destruct (x <? y), (x =? y); reflexivity.
Qed.
Fixpoint last_up (w : version) : version :=
  match w with
  | [] => []
  | [x] => [x + 1]
  | x :: w => x :: last_up w
  end.
Lemma prefix_interval w v : w <> [] ->
  veq (firstn (List.length w) v) w = vle w v && negb (vle (last_up w) v).
Proof.
  unfold vle. revert v. induction w as [|x w IH]; intros v H; [contradiction|].
  destruct v as [|y v]; [reflexivity|]. destruct w as [|x' w].
  - cbn. destruct (x <? y) eqn:E, (x =? y) eqn:F, (y =? x) eqn:G, (x + 1 <? y) eqn:K, (x + 1 =? y) eqn:M; try lia; cbn;
      destruct v; try reflexivity; cbn; lia.
  - change (firstn (List.length (x :: x' :: w)) (y :: v)) with (y :: firstn (List.length (x' :: w)) v).
    change (last_up (x :: x' :: w)) with (x :: last_up (x' :: w)).
    cbn [veq vlt]. rewrite IH by discriminate. fold (veq (last_up (x' :: w)) v).
    destruct (x <? y) eqn:E, (x =? y) eqn:F, (y =? x) eqn:G; try lia; cbn [orb andb]; try reflexivity.
Qed.

(** Zeros at the end do not matter for versions that are long enough. *)
Lemma vle_zeros k v : (k <= List.length v)%nat -> vle (repeat 0 k) v = true.
Proof.
  unfold vle. revert v. induction k as [|k IH]; intros v H; [destruct v; reflexivity|].
  destruct v as [|y v]; cbn in H; [lia|]. cbn [repeat vlt veq]. specialize (IH v ltac:(lia)).
  destruct (0 <? y) eqn:E; [reflexivity|]. replace (0 =? y) with true by lia. exact IH.
Qed.
Lemma vle_extend w k v : (List.length w + k <= List.length v)%nat -> vle (w ++ repeat 0 k) v = vle w v.
Proof.
  revert v. induction w as [|x w IH]; intros v H.
  - cbn [app]. rewrite vle_zeros by exact H. destruct v; reflexivity.
  - destruct v as [|y v]; cbn in H; [lia|]. specialize (IH v ltac:(lia)). unfold vle in *. cbn [app vlt veq].
    destruct (x <? y), (x =? y); cbn; auto.
Qed.
Lemma vle_pad w v : (4 <= List.length v)%nat -> vle (pad w) v = vle w v.
Proof.
  intros H. unfold pad. destruct (Nat.leb (List.length w) 4) eqn:E; [apply vle_extend; lia|].
  replace (4 - List.length w)%nat with 0%nat by lia. cbn [repeat]. rewrite app_nil_r. reflexivity.
Qed.
Lemma pad_long w : (4 <= List.length (pad w))%nat.
Proof. unfold pad. rewrite app_length, repeat_length. lia. Qed.

(** * Finitely many versions represent all *)

(** Conditions compare a version with these. *)
Definition parsed (s : text) (f : version -> version) : list version :=
  match compiler_version s with Some b => [f b] | None => [] end.
Definition next (b : version) : version := b ++ [0].
Definition thresholds (v : text) : list version :=
  match v with
  | [] => []
  | c :: r =>
      match after_prefix (txt "<=") v with
      | Some r => parsed r next
      | None =>
          match after_prefix (txt ">=") v with
          | Some r => parsed r (fun b => b)
          | None =>
              if Ascii.eqb c "<" then parsed r (fun b => b)
              else if Ascii.eqb c ">" then parsed r next
              else
                match range_from v with
                | Some (a, b) => parsed a (fun b => b) ++ parsed b (fun b => b)
                | None => match incomplete_version v with Some w => [pad w; pad (last_up w)] | None => [] end
                end
          end
      end
  end.
Definition agree (T : list version) (v r : version) : Prop := forall t, In t T -> vle t v = vle t r.

Lemma agree_app T U v r : agree (T ++ U) v r -> agree T v r /\ agree U v r.
Proof. intros H. split; intros t Ht; apply H, in_or_app; [left|right]; exact Ht. Qed.
Lemma agree_parsed s f g v r : (forall b, agree [f b] v r -> g b v = g b r) ->
  agree (parsed s f) v r -> with_version s (fun b => g b v) = with_version s (fun b => g b r).
Proof.
  intros H A. unfold with_version, parsed in *. destruct (compiler_version s) as [b|]; cbn; [|reflexivity].
  rewrite (H b A). reflexivity.
Qed.

Lemma vle_next a b : vle a b = negb (vle (next b) a).
Proof. unfold next. rewrite <- vlt_next, vlt_total, negb_involutive. reflexivity. Qed.

Lemma parse_ints_nonempty s : split "." s <> [].
Proof. destruct s as [|c s]; cbn; [discriminate|]. destruct (Ascii.eqb c "."); [discriminate|]. destruct (split "." s); discriminate. Qed.
Lemma incomplete_nonempty s w : incomplete_version s = Some w -> w <> [].
Proof.
  unfold incomplete_version. pose proof (parse_ints_nonempty s) as H. destruct (split "." s) as [|x ws]; [contradiction|].
  cbn. destruct (parse_int x), (parse_ints ws); intros [= <-] || discriminate. discriminate.
Qed.

Definition long (v : version) : Prop := (4 <= List.length v)%nat.
Lemma check_version_agree s v r : long v -> long r -> agree (thresholds s) v r -> check_version v s = check_version r s.
Proof.
  intros Lv Lr A. unfold thresholds, check_version in *. destruct s as [|c s]; [reflexivity|].
  destruct (after_prefix (txt "<=") (c :: s)) as [x|].
  { revert A. apply (agree_parsed x next (fun b v => vle v b)). intros b A. rewrite !(vle_next _ b), (A (next b)); [reflexivity|left; reflexivity]. }
  destruct (after_prefix (txt ">=") (c :: s)) as [x|].
  { revert A. apply (agree_parsed x (fun b => b) (fun b v => vle b v)). intros b A. apply A. left. reflexivity. }
  destruct (Ascii.eqb c "<").
  { revert A. apply (agree_parsed s (fun b => b) (fun b v => vlt v b)). intros b A. rewrite !vlt_total, (A b); [reflexivity|left; reflexivity]. }
  destruct (Ascii.eqb c ">").
  { revert A. apply (agree_parsed s next (fun b v => vlt b v)). intros b A. rewrite !vlt_next. apply A. left. reflexivity. }
  destruct (range_from (c :: s)) as [[a b]|].
  - apply agree_app in A as [A B]. unfold parsed in A, B.
    destruct (compiler_version a) as [a'|], (compiler_version b) as [b'|]; try reflexivity.
    rewrite !(vlt_total _ b'), (A a'), (B b') by (left; reflexivity). reflexivity.
  - destruct (incomplete_version (c :: s)) as [w|] eqn:E; [|reflexivity]. cbn [option_map].
    rewrite !prefix_interval by (eapply incomplete_nonempty; exact E).
    pose proof (A (pad w) (or_introl eq_refl)) as H1. pose proof (A (pad (last_up w)) (or_intror (or_introl eq_refl))) as H2.
    rewrite !vle_pad in H1, H2 by assumption. rewrite H1, H2. reflexivity.
Qed.

Definition condition_thresholds (conds : list text) : list version :=
  flat_map (fun c => thresholds (snd (find_condition_version (strip c)))) conds.
Lemma match_any_agree ids v r conds : long v -> long r -> agree (condition_thresholds conds) v r ->
  match_any ids v conds = match_any ids r conds.
Proof.
  intros Lv Lr. induction conds as [|c conds IH]; intros A; [reflexivity|].
  cbn [condition_thresholds flat_map] in A. apply agree_app in A as [A B].
  cbn [match_any]. destruct (find_condition_version (strip c)) as [needed s]. cbn [snd] in A.
  rewrite (check_version_agree s v r Lv Lr A), (IH B). reflexivity.
Qed.

Definition section_thresholds (s : section) : list version :=
  match conditions s with Some c => condition_thresholds (split "," c) | None => [] end.
Lemma any_match_agree ids v r n ss : long v -> long r -> agree (flat_map section_thresholds ss) v r ->
  any_match ids v n ss = any_match ids r n ss.
Proof.
  intros Lv Lr. induction ss as [|s ss IH]; intros A; [reflexivity|]. cbn [flat_map] in A. apply agree_app in A as [A B].
  cbn [any_match]. rewrite (IH B). unfold section_thresholds in A. destruct (conditions s) as [c|]; [|reflexivity].
  unfold match_condition. rewrite (match_any_agree ids v r _ Lv Lr A). reflexivity.
Qed.
Lemma agree_in s ss v r : In s ss -> agree (flat_map section_thresholds ss) v r -> agree (section_thresholds s) v r.
Proof. intros H A t Ht. apply A, in_flat_map. exists s. split; assumption. Qed.
Lemma selected_agree ids v r ss s : long v -> long r -> In s ss -> agree (flat_map section_thresholds ss) v r ->
  selected ids v ss s = selected ids r ss s.
Proof.
  intros Lv Lr H A. unfold selected. rewrite (any_match_agree ids v r _ ss Lv Lr A).
  pose proof (agree_in s ss v r H A) as B. unfold section_thresholds in B. destruct (conditions s) as [c|]; [|reflexivity].
  unfold match_condition. apply match_any_agree; assumption.
Qed.

(** The largest threshold that is not above the version answers like it. *)
Lemma representative z T v : vle z v = true -> exists r, In r (z :: T) /\ vle r v = true /\ agree T v r.
Proof.
  intros Hz. induction T as [|t T (r & Hr & Hv & A)].
  - exists z. split; [left; reflexivity|]. split; [exact Hz|intros t []].
  - destruct (vle t v) eqn:E; [destruct (vle r t) eqn:F|].
    + exists t. split; [right; left; reflexivity|]. split; [exact E|].
      intros t' [<-|H]; [rewrite E; symmetry; apply vle_refl|]. specialize (A t' H).
      destruct (vle t' r) eqn:G.
      * rewrite A. symmetry. apply (vle_trans t' r t G F).
      * rewrite A. destruct (vle t' t) eqn:K; [|reflexivity].
        rewrite (vle_trans t' t v K E) in A. discriminate.
    + exists r. split; [destruct Hr as [Hr|Hr]; [left; exact Hr|right; right; exact Hr]|]. split; [exact Hv|].
      intros t' [<-|H]; [|apply A, H]. rewrite E. symmetry. apply vle_total, F.
    + exists r. split; [destruct Hr as [Hr|Hr]; [left; exact Hr|right; right; exact Hr]|]. split; [exact Hv|].
      intros t' [<-|H]; [|apply A, H]. rewrite E. destruct (vle t r) eqn:G; [|reflexivity].
      rewrite (vle_trans t r v G Hv) in E. discriminate.
Qed.

Definition versions_of (ss : list section) : list version :=
  nodup (list_eq_dec N.eq_dec) ([0; 0; 0; 0] :: flat_map section_thresholds ss).
Lemma represented_in ss v : forallb (fun v => Nat.leb 4 (List.length v)) (versions_of ss) = true -> long v ->
  exists r, In r (versions_of ss) /\ forall ids s, In s ss -> selected ids v ss s = selected ids r ss s.
Proof.
  intros L Lv. assert (Hz : vle [0; 0; 0; 0] v = true) by (apply (vle_zeros 4); exact Lv).
  destruct (representative [0; 0; 0; 0] (flat_map section_thresholds ss) v Hz) as (r & Hr & _ & A).
  assert (Hn : In r (versions_of ss)) by (apply nodup_In; exact Hr).
  exists r. split; [exact Hn|]. intros ids s Hs. apply selected_agree; [exact Lv| |exact Hs|exact A].
  rewrite forallb_forall in L. specialize (L r Hn). unfold long. lia.
Qed.

(** For sample.cpp. *)
Definition versions : list version := Eval vm_compute in versions_of sections.
Lemma represented v : long v -> exists r, In r versions /\
  forall ids s, In s sections -> selected ids v sections s = selected ids r sections s.
Proof.
  assert (E : versions_of sections = versions) by (vm_compute; reflexivity).
  rewrite <- E. apply represented_in. rewrite E. reflexivity.
Qed.

(** * One listing for each function *)

Lemma same_text_true a b : same_text a b = true <-> a = b.
Proof.
  split; [|intros <-; induction a as [|x a IH]; cbn; [reflexivity|rewrite Ascii.eqb_refl; exact IH]].
  revert b. induction a as [|x a IH]; intros [|y b] H; try discriminate; [reflexivity|].
  cbn in H. apply andb_prop in H as [E H]. apply Ascii.eqb_eq in E as <-. f_equal. apply IH, H.
Qed.

(** The listings of a function that are selected, or whose condition raises an exception. *)
Definition chosen (ids : list text) (v : version) (ss : list section) (f : text) : list (option bool * section) :=
  filter (fun p => negb (match fst p with Some false => true | _ => false end))
    (map (fun s => (selected ids v ss s, s)) (filter (fun s => same_text (name s) f) ss)).
Definition single (l : list (option bool * section)) : bool := match l with [(Some true, _)] => true | _ => false end.

Lemma single_chosen ids v ss f : single (chosen ids v ss f) = true ->
  exists s, In s ss /\ name s = f /\ selected ids v ss s = Some true /\
    forall s', In s' ss -> name s' = f -> s' <> s -> selected ids v ss s' = Some false.
Proof.
  intros O.
  assert (M : forall o s', In (o, s') (chosen ids v ss f) <->
    In s' ss /\ name s' = f /\ selected ids v ss s' = o /\ o <> Some false).
  { intros o s'. unfold chosen. rewrite filter_In, in_map_iff. cbn [fst]. split.
    - intros ((x & [= Ho ->] & Hx) & K). apply filter_In in Hx as [Hx N]. apply same_text_true in N.
      repeat split; try assumption. intros ->. discriminate.
    - intros (H1 & H2 & H3 & H4). split.
      + exists s'. split; [rewrite H3; reflexivity|]. apply filter_In. split; [exact H1|]. apply same_text_true. exact H2.
      + destruct o as [[|]|]; try reflexivity. contradiction. }
  destruct (chosen ids v ss f) as [|[[[|]|] s] [|]] eqn:C; try discriminate. clear O.
  destruct (proj1 (M (Some true) s) (or_introl eq_refl)) as (H1 & H2 & H3 & _).
  exists s. repeat split; try assumption.
  intros s' K1 K2 K3.
  destruct (selected ids v ss s') as [[|]|] eqn:S.
  - destruct (proj2 (M (Some true) s')) as [K|[]]; [repeat split; try assumption; discriminate|]. congruence.
  - reflexivity.
  - destruct (proj2 (M None s')) as [K|[]]; [repeat split; try assumption; discriminate|]. congruence.
Qed.

Lemma one_each_all :
  forallb (fun c => forallb (fun v => forallb (fun f => single (chosen (words c) v sections f)) functions) versions) compilers = true.
Proof. vm_compute. reflexivity. Qed.

Lemma all_compilers c : In c compilers.
Proof. destruct c; cbn; auto 10. Qed.

Lemma forall3 {A B C} (p : A -> B -> C -> bool) la lb lc :
  forallb (fun a => forallb (fun b => forallb (p a b) lc) lb) la = true ->
  forall a b c, In a la -> In b lb -> In c lc -> p a b c = true.
Proof.
  intros H a b c Ha Hb Hc. rewrite forallb_forall in H. specialize (H a Ha). rewrite forallb_forall in H.
  specialize (H b Hb). rewrite forallb_forall in H. exact (H c Hc).
Qed.

Lemma one_listing c v f : long v -> In f functions ->
  exists s, In s sections /\ name s = f /\ selected (words c) v sections s = Some true /\
    forall s', In s' sections -> name s' = f -> s' <> s -> selected (words c) v sections s' = Some false.
Proof.
  intros Lv Hf. destruct (represented v Lv) as (r & Hr & E).
  pose proof (forall3 (fun c v f => single (chosen (words c) v sections f)) compilers versions functions
    one_each_all c r f (all_compilers c) Hr Hf) as O. cbv beta in O.
  generalize (words c), sections, E, O. clear. intros ids ss E O.
  destruct (single_chosen ids r ss f O) as (s & H1 & H2 & H3 & H4). exists s.
  rewrite (E ids s H1). repeat split; try assumption. intros s' K1 K2 K3. rewrite (E ids s' K1). apply H4; assumption.
Qed.

(** * The check *)

Lemma same_listing_true a b : same_listing a b = true <-> a = b.
Proof.
  split.
  - revert b. induction a as [|x a IH]; intros [|y b] H; try discriminate; [reflexivity|].
    cbn in H. apply andb_prop in H as [E H]. apply same_text_true in E as <-. f_equal. apply IH, H.
  - intros <-. induction a as [|x a IH]; [reflexivity|]. cbn. rewrite IH, andb_true_r. apply same_text_true. reflexivity.
Qed.

Section Check.
Context (ids : list text) (v : version).

Lemma any_match_spec n ss : readable ids v ss ->
  exists b, any_match ids v n ss = Some b /\
    (b = true <-> exists s c, In s ss /\ name s = n /\ conditions s = Some c /\ match_condition ids v c = Some true).
Proof.
  induction ss as [|s ss IH]; intros R.
  - exists false. split; [reflexivity|]. split; [discriminate|]. intros (s & c & [] & _).
  - destruct IH as (b & Hb & Eb); [intros x c Hx; apply R; right; exact Hx|]. cbn [any_match].
    assert (skip : (forall c, conditions s = Some c -> name s = n -> match_condition ids v c <> Some true) ->
      (b = true <-> exists s0 c, In s0 (s :: ss) /\ name s0 = n /\ conditions s0 = Some c /\ match_condition ids v c = Some true)).
    { intros H. rewrite Eb. split; intros (x & c & Hx & K); exists x, c.
      - split; [right; exact Hx|exact K].
      - destruct Hx as [<-|Hx]; [|split; assumption]. destruct K as (K1 & K2 & K3). exfalso. exact (H c K2 K1 K3). }
    destruct (conditions s) as [c|] eqn:C; [|exists b; split; [exact Hb|apply skip; discriminate]].
    destruct (same_text (name s) n) eqn:N.
    + apply same_text_true in N. pose proof (R s c (or_introl eq_refl) C) as M.
      destruct (match_condition ids v c) as [[|]|] eqn:E; [| |contradiction].
      * exists true. split; [reflexivity|]. split; [|reflexivity]. intros _. exists s, c. repeat split; try assumption. left. reflexivity.
      * exists b. split; [exact Hb|]. apply skip. intros c' [= <-] _. rewrite E. discriminate.
    + exists b. split; [exact Hb|]. apply skip. intros c' _ K. apply same_text_true in K. congruence.
Qed.

Lemma selected_spec ss s : readable ids v ss -> In s ss ->
  exists b, selected ids v ss s = Some b /\ (b = true <-> applies ids v ss s).
Proof.
  intros R H. unfold selected, applies. destruct (conditions s) as [c|] eqn:C.
  - pose proof (R s c H C) as M. destruct (match_condition ids v c) as [b|]; [|contradiction].
    exists b. split; [reflexivity|]. split; [intros ->; reflexivity|intros [= ->]; reflexivity].
  - destruct (any_match_spec (name s) ss R) as (b & -> & E). exists (negb b). split; [reflexivity|].
    rewrite negb_true_iff. split.
    + intros -> x c Hx N D M. assert (K : false = true) by (apply E; exists x, c; repeat split; assumption). discriminate.
    + intros K. destruct b; [|reflexivity]. destruct (proj1 E eq_refl) as (x & c & Hx & N & D & M). destruct (K x c Hx N D M).
Qed.

Lemma check_spec ss d : readable ids v ss -> (forall s, In s ss -> listing_of (name s) d <> None) ->
  exists n ok, check ids v ss d = Some (n, ok) /\
    (ok = true <-> forall s, In s ss -> applies ids v ss s ->
       disabled s = true \/ listing_of (name s) d = Some (map snd (body s))).
Proof.
  intros R K. unfold check.
  assert (H : forall l, incl l ss -> exists n ok, check_from ids v ss d l = Some (n, ok) /\
    (ok = true <-> forall s, In s l -> applies ids v ss s ->
       disabled s = true \/ listing_of (name s) d = Some (map snd (body s)))).
  { induction l as [|s l IH]; intros I.
    - exists O, true. split; [reflexivity|]. split; [intros _ s []|reflexivity].
    - destruct IH as (n & ok & E & Q); [intros x Hx; apply I; right; exact Hx|].
      assert (Hs : In s ss) by (apply I; left; reflexivity). cbn [check_from].
      pose proof (K s Hs) as N. destruct (listing_of (name s) d) as [code|] eqn:L; [|contradiction].
      destruct (selected_spec ss s R Hs) as (b & -> & A). rewrite E. destruct b.
      + exists (S n), ((disabled s || same_listing (map snd (body s)) code) && ok). split; [reflexivity|].
        rewrite andb_true_iff, orb_true_iff, same_listing_true, Q. split.
        * intros (H & T) x [<-|Hx] Ax; [|exact (T x Hx Ax)]. rewrite L. destruct H as [H|<-]; auto.
        * intros T. split; [|intros x Hx; apply T; right; exact Hx].
          destruct (T s (or_introl eq_refl) (proj1 A eq_refl)) as [H|H]; [left; exact H|right]. rewrite L in H. congruence.
      + exists n, ok. split; [reflexivity|]. rewrite Q. split.
        * intros T x [<-|Hx] Ax; [|exact (T x Hx Ax)]. apply A in Ax. discriminate.
        * intros T x Hx. apply T. right. exact Hx. }
  apply H. intros x Hx. exact Hx.
Qed.

(** The number of listings that were looked at. *)
Lemma check_count ss d n ok : check ids v ss d = Some (n, ok) ->
  n = List.length (filter (fun s => match selected ids v ss s with Some true => true | _ => false end) ss).
Proof.
  unfold check. generalize ss at 2 4 as l. intros l. revert n ok.
  induction l as [|s l IH]; intros n ok; cbn [check_from filter]; [intros [= <- _]; reflexivity|].
  destruct (listing_of (name s) d); [|discriminate]. destruct (selected ids v ss s) as [[|]|]; [| |discriminate].
  - destruct (check_from ids v ss d l) as [[m k]|]; [|discriminate]. intros [= <- _]. cbn. f_equal. exact (IH m k eq_refl).
  - apply IH.
Qed.
End Check.

(** * Conditions on versions *)

Lemma vle_before a b : vle a b = true <-> a = b \/ before a b.
Proof. unfold vle. rewrite orb_true_iff, veq_true, vlt_before. tauto. Qed.

Lemma below v s b : compiler_version s = Some b -> (forall r, s <> "="%char :: r) ->
  (check_version v ("<"%char :: s) = Some true <-> before v b) /\
  (check_version v (">"%char :: s) = Some true <-> before b v).
Proof.
  intros E N. unfold check_version, with_version.
  assert (Q : after_prefix (txt "=") s = None).
  { destruct s as [|d s]; [reflexivity|]. cbn [after_prefix txt list_ascii_of_string].
    destruct (Ascii.eqb "=" d) eqn:F; [apply Ascii.eqb_eq in F as <-; destruct (N s eq_refl)|reflexivity]. }
  change (after_prefix (txt "<=") ("<"%char :: s)) with (after_prefix (txt "=") s).
  change (after_prefix (txt ">=") (">"%char :: s)) with (after_prefix (txt "=") s).
  change (after_prefix (txt "<=") (">"%char :: s)) with (@None text).
  change (after_prefix (txt ">=") ("<"%char :: s)) with (@None text).
  rewrite Q. cbn [Ascii.eqb Bool.eqb]. rewrite E. cbn [option_map].
  rewrite <- !vlt_before. split; split; congruence.
Qed.
Lemma at_most v s b : compiler_version s = Some b ->
  (check_version v ("<"%char :: "="%char :: s) = Some true <-> v = b \/ before v b) /\
  (check_version v (">"%char :: "="%char :: s) = Some true <-> b = v \/ before b v).
Proof.
  intros E. unfold check_version, with_version. cbn [after_prefix txt list_ascii_of_string Ascii.eqb Bool.eqb].
  rewrite E. cbn [option_map]. rewrite <- !vle_before. split; split; congruence.
Qed.

(** A plain version w means the versions that begin with w. *)
Lemma begins v s w : incomplete_version s = Some w -> (forall c r, s = c :: r -> is_digit c = true) -> range_from s = None ->
  (check_version v s = Some true <-> exists rest, v = w ++ rest).
Proof.
  intros E D R. pose proof (incomplete_nonempty s w E) as Nw. unfold check_version.
  destruct s as [|c s]; [discriminate E|]. specialize (D c s eq_refl).
  assert (P : Ascii.eqb c "<" = false /\ Ascii.eqb c ">" = false).
  { split; destruct (Ascii.eqb c _) eqn:F; try reflexivity; apply Ascii.eqb_eq in F as ->; discriminate. }
  destruct P as [P1 P2].
  assert (Q : after_prefix (txt "<=") (c :: s) = None /\ after_prefix (txt ">=") (c :: s) = None).
  { cbn [after_prefix txt list_ascii_of_string]. rewrite (Ascii.eqb_sym "<" c), (Ascii.eqb_sym ">" c), P1, P2. split; reflexivity. }
  destruct Q as [-> ->]. rewrite P1, P2, R, E. cbn [option_map]. split.
  - intros [= H]. apply veq_true in H. exists (skipn (List.length w) v). rewrite <- H at 1. symmetry. apply firstn_skipn.
  - intros (rest & ->). f_equal. apply veq_true. rewrite firstn_app, Nat.sub_diag, firstn_all, app_nil_r. reflexivity.
Qed.

(** A range a..b or a..<b holds its first version and not its last. *)
Lemma ranges v s a b : range_from s = Some (a, b) ->
  forall va vb, compiler_version a = Some va -> compiler_version b = Some vb ->
  (check_version v s = Some true <-> (va = v \/ before va v) /\ before v vb).
Proof.
  intros R va vb Ea Eb. unfold check_version. destruct s as [|c s]; [discriminate R|].
  assert (D : number_char c = true) by (cbn in R; destruct (number_char c); [reflexivity|discriminate]).
  assert (P : Ascii.eqb c "<" = false /\ Ascii.eqb c ">" = false).
  { split; destruct (Ascii.eqb c _) eqn:F; try reflexivity; apply Ascii.eqb_eq in F as ->; discriminate. }
  destruct P as [P1 P2].
  assert (Q : after_prefix (txt "<=") (c :: s) = None /\ after_prefix (txt ">=") (c :: s) = None).
  { cbn [after_prefix txt list_ascii_of_string]. rewrite (Ascii.eqb_sym "<" c), (Ascii.eqb_sym ">" c), P1, P2. split; reflexivity. }
  destruct Q as [-> ->]. rewrite P1, P2, R, Ea, Eb. rewrite <- vle_before, <- vlt_before. split.
  - intros [= H]. apply andb_prop in H. exact H.
  - intros [-> ->]. reflexivity.
Qed.

(** A condition is a list of alternatives; the words of one are joined by &. *)
Lemma alternatives ids v l : (forall c, In c l -> check_version v (snd (find_condition_version (strip c))) <> None) ->
  exists b, match_any ids v l = Some b /\
    (b = true <-> exists c, In c l /\ (forall w, In w (split "&" (fst (find_condition_version (strip c)))) -> In (strip w) ids) /\
       check_version v (snd (find_condition_version (strip c))) = Some true).
Proof.
  assert (KN : forall w, known ids w = true <-> In w ids).
  { intros w. unfold known. rewrite existsb_exists. split.
    - intros (x & Hx & E). apply same_text_true in E as ->. exact Hx.
    - intros H. exists w. split; [exact H|]. apply same_text_true. reflexivity. }
  induction l as [|c l IH]; intros R.
  - exists false. split; [reflexivity|]. split; [discriminate|]. intros (c & [] & _).
  - destruct IH as (b & Hb & Eb); [intros x Hx; apply R; right; exact Hx|]. cbn [match_any].
    pose proof (R c (or_introl eq_refl)) as Rc. destruct (find_condition_version (strip c)) as [needed s] eqn:F. cbn [snd] in Rc.
    assert (FK : forallb (known ids) (map strip (split "&" needed)) = true <-> forall w, In w (split "&" needed) -> In (strip w) ids).
    { rewrite forallb_forall. split.
      - intros H w Hw. apply KN, H, in_map, Hw.
      - intros H w Hw. apply in_map_iff in Hw as (x & <- & Hx). apply KN, H, Hx. }
    assert (skip : ~ ((forall w, In w (split "&" needed) -> In (strip w) ids) /\ check_version v s = Some true) ->
      (b = true <-> exists c0, In c0 (c :: l) /\ (forall w, In w (split "&" (fst (find_condition_version (strip c0)))) -> In (strip w) ids) /\
       check_version v (snd (find_condition_version (strip c0))) = Some true)).
    { intros K. rewrite Eb. split; intros (x & Hx & H); exists x.
      - split; [right; exact Hx|exact H].
      - destruct Hx as [<-|Hx]; [|split; assumption]. rewrite F in H. destruct (K H). }
    destruct (forallb (known ids) (map strip (split "&" needed))) eqn:G.
    + destruct (check_version v s) as [[|]|] eqn:V; [| |contradiction].
      * exists true. split; [reflexivity|]. split; [|reflexivity]. intros _. exists c. rewrite F. cbn [fst snd].
        split; [left; reflexivity|]. split; [apply FK; reflexivity|exact V].
      * exists b. split; [exact Hb|]. apply skip. intros (_ & K). discriminate.
    + exists b. split; [exact Hb|]. apply skip. intros (K & _). apply FK in K. discriminate.
Qed.

(** Versions read from the command line have at least four numbers. *)
Lemma compiler_version_long s v : compiler_version s = Some v -> long v.
Proof.
  unfold compiler_version. destruct (incomplete_version s) as [w|]; [|discriminate]. intros [= <-].
  unfold long, pad. rewrite app_length, repeat_length. lia.
Qed.

(** * The whole of sample.cpp *)


Lemma sections_distinct : NoDup sections.
Proof.
  apply (NoDup_map_inv line). assert (H : nodup Nat.eq_dec (map line sections) = map line sections) by (vm_compute; reflexivity).
  rewrite <- H. apply NoDup_nodup.
Qed.

Lemma section_eq_dec (a b : section) : {a = b} + {a <> b}.
Proof.
  destruct a as [la na ca ba], b as [lb nb cb bb].
  destruct (Nat.eq_dec la lb) as [->|]; [|right; congruence].
  destruct (list_eq_dec ascii_dec na nb) as [->|]; [|right; congruence].
  destruct (list_eq_dec (fun x y : nat * text => ltac:(decide equality; [apply (list_eq_dec ascii_dec)|apply Nat.eq_dec])) ba bb) as [->|];
    [|right; congruence].
  destruct ca as [ca|], cb as [cb|]; try (right; congruence); [|left; reflexivity].
  destruct (list_eq_dec ascii_dec ca cb) as [->|]; [left; reflexivity|right; congruence].
Qed.

Lemma sample_decided c v s : long v -> In s sections -> exists b, selected (words c) v sections s = Some b.
Proof.
  intros L H. assert (F : In (name s) functions).
  { unfold functions. rewrite nodup_In. apply in_map, H. }
  destruct (one_listing c v (name s) L F) as (t & H1 & H2 & H3 & H4).
  destruct (section_eq_dec s t) as [-> | N]; [eexists; exact H3|]. eexists. apply H4; [exact H|reflexivity|exact N].
Qed.

Lemma sample_readable c v : long v -> readable (words c) v sections.
Proof.
  intros L s k H E. destruct (sample_decided c v s L H) as (b & S). unfold selected in S. rewrite E in S. rewrite S. discriminate.
Qed.

Lemma NoDup_map_filter (A B : Type) (f : A -> B) (p : A -> bool) l : NoDup l ->
  (forall x y, In x l -> In y l -> p x = true -> p y = true -> f x = f y -> x = y) -> NoDup (map f (filter p l)).
Proof.
  induction 1 as [|x l N D IH]; intros I; [constructor|]. cbn [filter].
  assert (J : NoDup (map f (filter p l))) by (apply IH; intros; apply I; try right; assumption).
  destruct (p x) eqn:E; [|exact J]. cbn. constructor; [|exact J].
  intros K. apply in_map_iff in K as (y & K1 & K2). apply filter_In in K2 as [K2 K3]. apply N.
  rewrite (I x y (or_introl eq_refl) (or_intror K2) E K3 (eq_sym K1)). exact K2.
Qed.

Lemma count_one (p : section -> bool) ss fs : NoDup ss -> NoDup fs ->
  (forall s, In s ss -> In (name s) fs) ->
  (forall f, In f fs -> exists s, In s ss /\ name s = f /\ p s = true /\ forall s', In s' ss -> name s' = f -> s' <> s -> p s' = false) ->
  List.length (filter p ss) = List.length fs.
Proof.
  intros D F N O. rewrite <- (map_length name). apply Permutation_length, NoDup_Permutation; [|exact F|].
  - apply NoDup_map_filter; [exact D|]. intros x y Hx Hy Px Py E.
    destruct (O (name x) (N x Hx)) as (s & H1 & H2 & H3 & H4).
    destruct (section_eq_dec x s) as [-> | K]; [|rewrite (H4 x Hx eq_refl K) in Px; discriminate].
    destruct (section_eq_dec y s) as [-> | K]; [reflexivity|]. rewrite (H4 y Hy (eq_sym E) K) in Py. discriminate.
  - intros f. split.
    + intros H. apply in_map_iff in H as (s & <- & H). apply filter_In in H. apply N, H.
    + intros H. destruct (O f H) as (s & H1 & H2 & H3 & _). apply in_map_iff. exists s. split; [exact H2|].
      apply filter_In. split; assumption.
Qed.

Lemma sample_count c v d n ok : long v -> check (words c) v sections d = Some (n, ok) -> n = List.length functions.
Proof.
  intros L H. rewrite (check_count _ _ _ _ _ _ H). apply count_one.
  - exact sections_distinct.
  - apply NoDup_nodup.
  - intros s Hs. unfold functions. rewrite nodup_In. apply in_map, Hs.
  - intros f Hf. destruct (one_listing c v f L Hf) as (s & H1 & H2 & H3 & H4). exists s.
    split; [exact H1|]. split; [exact H2|]. split; [rewrite H3; reflexivity|].
    intros s' K1 K2 K3. rewrite (H4 s' K1 K2 K3). reflexivity.
Qed.
