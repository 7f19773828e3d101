(** construct_at of C++17: when it keeps the rules for classes, and what happens when it does not. *)
From Coq Require Import NArith ZArith Bool List Lia.
From Verif Require Import Outcome Words Lifetime LifetimeSpec LifetimeFacts History HistorySpec HistoryFacts
  Log LogFacts LifetimeLemmas ConstructAt.
Import ListNotations.
Open Scope N_scope.

Section Facts.
Context {W : Type} (C : cls W) (S : sem C) (tmp : raw C).

(** No T is made in a temporary, or the temporary needs no destruction. *)
Definition harmless : Prop := tma C = true -> td C = true.

Lemma at17_off : forall {W'} d (mk : raw C -> W' -> out (raw C * W')) r w,
  tma C = false -> construct_at17 C d tmp mk r w = mk r w.
Proof. intros W' d mk r w E. unfold construct_at17. now rewrite E. Qed.

(** On return, and in the world, nothing but the contents that [mk] found can make a difference. *)
Lemma at17_ret : forall {W'} d (mk : raw C -> W' -> out (raw C * W')) r w p, harmless ->
  construct_at17 C d tmp mk r w = Ret p -> exists r0, mk r0 w = Ret p.
Proof.
  intros W' d mk r w p H E. unfold construct_at17 in E. destruct (tma C) eqn:M.
  - rewrite (H M) in E. exists tmp. destruct (mk tmp w) as [[t w']|[t w']| |]; try discriminate. exact E.
  - now exists r.
Qed.

Lemma at17_exn : forall {W'} d (mk : raw C -> W' -> out (raw C * W')) r w r' w', harmless ->
  construct_at17 C d tmp mk r w = Exn (r', w') ->
  exists r0 r1, mk r0 w = Exn (r1, w') /\ ((tma C = true /\ r' = r) \/ (tma C = false /\ r0 = r /\ r1 = r')).
Proof.
  intros W' d mk r w r' w' H E. unfold construct_at17 in E. destruct (tma C) eqn:M.
  - rewrite (H M) in E. exists tmp. destruct (mk tmp w) as [[t w2]|[t w2]| |]; try discriminate.
    injection E as <- <-. exists t. split; [reflexivity|]. left. auto.
  - exists r, r'. split; [exact E|]. right. auto.
Qed.

Lemma at17_post : forall {W'} B d (mk : raw C -> W' -> out (raw C * W')) r w R (E : raw C * W' -> Prop), harmless ->
  (forall r0, post B (mk r0 w) R E) -> (forall a b c, E (a, c) -> E (b, c)) ->
  post B (construct_at17 C d tmp mk r w) R E.
Proof.
  intros W' B d mk r w R E H P I. unfold construct_at17. destruct (tma C) eqn:M; [|apply P].
  rewrite (H M). specialize (P tmp). destruct (mk tmp w) as [[t w']|[t w']| |]; cbn in P |- *; auto. now apply I with t.
Qed.

Theorem at17_lawful : lawful C S -> harmless -> lawful (at17 C tmp) (sem17 C tmp S).
Proof.
  intros L H. destruct L. constructor; cbn; auto.
  - intros [b i] r w. cbn. destruct b; [|apply l_ctor]. apply at17_post; auto.
  - intros s r w Hs. apply at17_post; auto.
  - intros s r w Hs. apply (at17_post (stops S) (lift (dtor C)) (mctor C) r (s, w)); auto.
  - intros [b i] r w r' w' Hs. cbn. destruct b; [|now apply l_scalar_throw].
    intros E. destruct (at17_exn _ _ _ _ _ _ H E) as (r0 & r1 & Em & [[_ ->]|(_ & -> & ->)]); [reflexivity|].
    eauto.
  - intros s r w [r' w'] Hsc Hs E.
    destruct (at17_exn _ _ _ _ _ _ H E) as (r0 & r1 & Em & _). exact (l_scalar_copy _ _ _ _ Hsc Hs Em).
Qed.

(** A temporary in between: a constructor that throws does not touch the storage. *)
Theorem at17_quiet_tma : tma C = true -> td C = true ->
  (forall i, quiet_init (at17 C tmp) (true, i)) /\ quiet_copy (at17 C tmp) (sem17 C tmp S) /\
  quiet_move (at17 C tmp) (sem17 C tmp S).
Proof.
  intros M T. assert (H : harmless) by (intros _; exact T). split; [|split].
  - intros i r w r' w' _ _ E. destruct (at17_exn _ _ _ _ _ _ H E) as (r0 & r1 & _ & [[_ ->]|(F & _)]); [reflexivity|congruence].
  - intros s r w r' w' _ _ _ E. destruct (at17_exn _ _ _ _ _ _ H E) as (r0 & r1 & _ & [[_ ->]|(F & _)]); [reflexivity|congruence].
  - intros s r w r' [s' w'] _ _ _ E. destruct (at17_exn _ _ _ _ _ _ H E) as (r0 & r1 & _ & [[_ ->]|(F & _)]); [reflexivity|congruence].
Qed.

Lemma at17_quiet_init : forall i, harmless -> (tma C = false -> quiet_init C i) -> quiet_init (at17 C tmp) (true, i).
Proof.
  intros i H Q. destruct (tma C) eqn:M.
  - now apply (at17_quiet_tma M (H M)).
  - intros r w r' w' Hm Hl E. cbn [ctor at17 fst snd] in E. rewrite at17_off in E by exact M. now apply (Q eq_refl) with w w'.
Qed.

Lemma at17_quiet_copy : harmless -> (tma C = false -> quiet_copy C S) -> quiet_copy (at17 C tmp) (sem17 C tmp S).
Proof.
  intros H Q. destruct (tma C) eqn:M.
  - now apply (at17_quiet_tma M (H M)).
  - intros s r w r' w' Hs Hm Hl E. cbn [cctor at17] in E. rewrite at17_off in E by exact M. now apply (Q eq_refl) with s w w'.
Qed.

Lemma at17_quiet_move : harmless -> (tma C = false -> quiet_move C S) -> quiet_move (at17 C tmp) (sem17 C tmp S).
Proof.
  intros H Q. destruct (tma C) eqn:M.
  - now apply (at17_quiet_tma M (H M)).
  - intros s r w r' x Hs Hm Hl E. cbn [mctor at17] in E. rewrite at17_off in E by exact M. now apply (Q eq_refl) with s w x.
Qed.

Theorem at17_steady : steady C S -> harmless -> steady (at17 C tmp) (sem17 C tmp S).
Proof.
  intros N H. destruct N. constructor; cbn.
  - intros [b i] r w [r' w'] E. cbn in E. destruct b.
    + destruct (at17_exn _ _ _ _ _ _ H E) as (r0 & r1 & Em & _). exact (s_ctor _ _ _ _ Em).
    + exact (s_ctor _ _ _ _ E).
  - intros s r w [r' w'] Hs E. destruct (at17_exn _ _ _ _ _ _ H E) as (r0 & r1 & Em & _). exact (s_cctor _ _ _ _ Hs Em).
  - intros s r w [r' w'] Hs E. destruct (at17_exn _ _ _ _ _ _ H E) as (r0 & r1 & Em & _). exact (s_mctor _ _ _ _ Hs Em).
Qed.

(** The labels do not show in the specification of programs. *)
Lemma odenotes_new17 : forall i v, odenotes (at17 C tmp) (sem17 C tmp S) (new17 C i) v <-> odenotes C S i v.
Proof. intros [|i|[i|]] v; cbn; reflexivity. Qed.

Lemma odenotes_set17 : forall i v, odenotes (at17 C tmp) (sem17 C tmp S) (set17 C i) v <-> odenotes C S i v.
Proof. intros [|i|[i|]] v; cbn; reflexivity. Qed.

Lemma returns_call17 : forall o a a',
  returns (at17 C tmp) (sem17 C tmp S) (call17 C tmp S o) a a' -> returns C S o a a'.
Proof.
  intros o a a'. destruct o; cbn -[odenotes]; auto.
  - intros (Hf & v & Hd & E). split; [exact Hf|]. exists v. split; [now apply odenotes_new17|exact E].
  - intros (v & v' & Hv & Hd & E). exists v, v'. split; [exact Hv|]. split; [now apply odenotes_set17|exact E].
Qed.

Lemma throws_call17 : forall o a a',
  throws (at17 C tmp) (sem17 C tmp S) (call17 C tmp S o) a a' -> throws C S o a a'.
Proof. intros o a a'. destruct o; cbn; auto. Qed.

Lemma misuse_call17 : forall o a, misuse (at17 C tmp) (sem17 C tmp S) (call17 C tmp S o) a -> misuse C S o a.
Proof. intros o a. destruct o; cbn; auto. Qed.

Lemma runs_call17 : forall os ks a a',
  runs (at17 C tmp) (sem17 C tmp S) (map (call17 C tmp S) os) ks a a' -> runs C S os ks a a'.
Proof.
  induction os as [|o os IH]; intros [|k ks] a a' H; cbn in H |- *; auto.
  destruct H as (a1 & H1 & H2). exists a1. split; [|now apply IH].
  destruct k; [now apply throws_call17|now apply returns_call17].
Qed.

Lemma fair_call17 : forall o, fair C S o -> fair (at17 C tmp) (sem17 C tmp S) (call17 C tmp S o).
Proof. intros o. destruct o; cbn; auto. Qed.

Lemma gentle_call17 : forall o, harmless -> (tma C = false -> gentle C S o) ->
  gentle (at17 C tmp) (sem17 C tmp S) (call17 C tmp S o).
Proof.
  intros o H G.
  destruct o; cbn in G |- *; auto;
    try (apply at17_quiet_copy; assumption); try (apply at17_quiet_move; assumption); try (apply at17_quiet_init; assumption).
  - destruct i as [|i|[i|]]; cbn; auto. apply at17_quiet_init; assumption.
  - destruct i as [|i|[i|]]; cbn; auto; apply at17_quiet_init; assumption.
Qed.

(** Programs compiled as C++17 do to the values what they do as C++20. *)
Theorem programs17 : lawful C S -> harmless -> forall os n w,
  Forall (fair C S) os -> (tma C = false -> Forall (gentle C S) os) ->
  match run (at17 C tmp) (sem17 C tmp S) (map (call17 C tmp S) os) (repeat None n) w with
  | HDone ks l w' => healthy (at17 C tmp) (sem17 C tmp S) l /\
      runs C S os ks (repeat None n) (values (at17 C tmp) (sem17 C tmp S) l) /\
      (cnt S w' - owned (at17 C tmp) (sem17 C tmp S) l = cnt S w)%Z
  | HAbort ks => stops S \/
      exists os1 o os2 a, os = os1 ++ o :: os2 /\ runs C S os1 ks (repeat None n) a /\ misuse C S o a
  | HUndef => False
  | HBad => True
  end.
Proof.
  intros L H os n w Hf Hg.
  assert (Ff : Forall (fair (at17 C tmp) (sem17 C tmp S)) (map (call17 C tmp S) os)).
  { rewrite Forall_map. eapply Forall_impl; [|exact Hf]. apply fair_call17. }
  assert (Fg : Forall (gentle (at17 C tmp) (sem17 C tmp S)) (map (call17 C tmp S) os)).
  { rewrite Forall_map, Forall_forall. intros o Ho. apply gentle_call17; [exact H|].
    intros M. specialize (Hg M). rewrite Forall_forall in Hg. now apply Hg. }
  pose proof (run_ok _ _ (at17_lawful L H) _ (repeat None n) w (healthy_none _ _ _ n) Ff Fg) as R.
  assert (E : values (at17 C tmp) (sem17 C tmp S) (repeat None n) = repeat None n).
  { unfold values. clear. induction n; cbn; [reflexivity|]. now f_equal. }
  destruct (run _ _ _ _ w) as [ks l w'|ks| |]; auto.
  - destruct R as (R1 & R2 & R3). split; [exact R1|]. split; [|rewrite owned_none in R3; cbn [cnt sem17] in R3; lia].
    rewrite E in R2. now apply runs_call17.
  - destruct R as [B|(os1 & o & os2 & a & E1 & R1 & M)]; [now left|right].
    apply map_eq_app in E1 as (l1 & l2 & -> & <- & E2). destruct l2 as [|o0 l2]; [discriminate|].
    cbn in E2. injection E2 as <- <-. exists l1, o0, l2, a. split; [reflexivity|].
    split; [rewrite E in R1; now apply runs_call17|now apply misuse_call17].
Qed.

(** ** When the temporary needs destruction *)

(** The object in the option is one that was destroyed: it is not in the census, and destroying it
    takes away from the census what it never added. *)
Theorem construct17_dead : lawful C S -> tma C = true -> td C = false -> ~ stops S ->
  forall i c w c' w', inv C S c -> c_alive c = false ->
  o_construct (at17 C tmp) (ctor (at17 C tmp) (true, i)) (cell17 C tmp c) w = Ret (c', w') ->
  c_alive c' = true /\ ok S (c_raw c') /\ cnt S w' = cnt S w /\
  (forall c2 w2, o_dtor (at17 C tmp) c' w' = Ret (c2, w2) \/ o_reset (at17 C tmp) c' w' = Ret (c2, w2) ->
     cnt S w2 = (cnt S w - own S (c_raw c'))%Z).
Proof.
  intros L M T NS i c w c' w' Hc Ha E. unfold o_construct in E.
  cbn [c_alive cell17 c_raw c_flag td at17 ctor fst snd] in E. rewrite Ha, T in E. cbn [andb negb] in E.
  unfold construct_at17 in E. rewrite M, T in E.
  pose proof (l_ctor _ _ L i tmp w) as P. destruct (ctor C i tmp w) as [[t w1]|[t w1]| |]; try discriminate.
  cbn in P. destruct P as [(Hok & _ & Hcnt)|[B _]]; [|contradiction].
  pose proof (l_dtor _ _ L t w1 Hok) as D. destruct (dtor C t w1) as [[t2 w2]|[t2 w2]| |]; try discriminate.
  cbn in D, E.
  assert (F : c' = mkcell (C := at17 C tmp) t (c_flag c') true /\ w' = w2 /\ o_has (at17 C tmp) c' = Ok true).
  { unfold traits in E. cbn [lmax at17] in E. destruct (lmax C =? 0) eqn:Z; cbn [negb] in E.
    - injection E as <- <-. repeat split. unfold o_has, traits. cbn [lmax at17]. now rewrite Z.
    - destruct (o_has _ _) as [[|]| |] eqn:O; try discriminate. cbn in E. injection E as <- <-. repeat split. exact O. }
  destruct F as (Ec & -> & Hh). split; [now rewrite Ec|]. rewrite Ec. cbn [c_raw]. split; [exact Hok|]. split; [lia|].
  rewrite <- Ec. intros c2 w3 [Ed|Er].
  - unfold o_dtor in Ed. cbn [td at17] in Ed. rewrite T, Hh in Ed. cbn [check] in Ed.
    unfold destroy_value in Ed. rewrite Ec in Ed. cbn [c_alive c_raw c_flag dtor at17] in Ed.
    pose proof (l_dtor _ _ L t w2 Hok) as D2. destruct (dtor C t w2) as [[t4 w4]|[t4 w4]| |]; try discriminate.
    cbn in D2, Ed. injection Ed as <- <-. lia.
  - unfold o_reset in Er. cbn [td at17] in Er. rewrite T, Hh in Er. cbn [check] in Er.
    unfold destroy_value in Er. rewrite Ec in Er. cbn [c_alive c_raw c_flag dtor at17] in Er.
    pose proof (l_dtor _ _ L t w2 Hok) as D2. destruct (dtor C t w2) as [[t4 w4]|[t4 w4]| |]; try discriminate.
    cbn [nothrow] in Er. cbn in D2. unfold o_empty in Er. destruct (traits _).
    + cbn zeta in Er. match type of Er with context [check ?x] => destruct x as [[|]| |] end; cbn in Er; try discriminate. injection Er as <- <-. lia.
    + injection Er as <- <-. lia.
Qed.

End Facts.
Arguments harmless {W} C.

(** At any depth of nesting: the inner options never use a harmful temporary, since an option is
    trivially assignable only if T is trivially destructible. *)
Theorem nest17_lawful : forall W n fl (C : cls W) (tmp : raw C) (S : sem C),
  lawful C S -> steady C S -> harmless C ->
  let D := nest17 n fl C tmp S in
  lawful (projT1 D) (snd (projT2 D)) /\ steady (projT1 D) (snd (projT2 D)).
Proof.
  intros W n fl C tmp S L N H. cbn zeta. induction n as [|n IH].
  - cbn. split; [now apply at17_lawful|now apply at17_steady].
  - cbn [nest17]. destruct (nest17 n fl C tmp S) as [D [t SD]]. cbn in IH |- *. destruct IH as [IL IN].
    assert (HD : harmless (opt_cls D)).
    { unfold harmless. cbn. destruct (tmc D), (tma D), (td D); cbn; auto; discriminate. }
    split.
    + apply at17_lawful; [|exact HD]. apply opt_lawful; [exact IL|now apply steady_quiet].
    + apply at17_steady; [|exact HD]. now apply opt_steady.
Qed.

Lemma option_harmless : forall W (C : cls W), harmless (opt_cls C).
Proof. intros W C. unfold harmless. cbn. destruct (tmc C), (tma C), (td C); cbn; auto; discriminate. Qed.

(** ** In-place construction *)

Section InPlace.
Context {W : Type} (C : cls W) (S : sem C) (tmp : raw C).

Notation vars17 := (map (option_map (cell17 C tmp))).

Lemma slot17 : forall l x, slot (C := at17 C tmp) (vars17 l) x = option_map (cell17 C tmp) (slot l x).
Proof. intros l x. unfold slot. rewrite nth_error_map. destruct (nth_error l x) as [[c|]|]; reflexivity. Qed.

Lemma free17 : forall l x, free (C := at17 C tmp) (vars17 l) x = free l x.
Proof. intros l x. unfold free. rewrite nth_error_map. destruct (nth_error l x) as [[c|]|]; reflexivity. Qed.

Lemma put17 : forall l x v, put (vars17 l) x (option_map (cell17 C tmp) v) = vars17 (put l x v).
Proof. intros l. induction l as [|a l IH]; intros [|x] v; cbn; try reflexivity. now rewrite IH. Qed.

Definition out17 (o : out (cell C * W)) : out (cell (at17 C tmp) * W) :=
  match o with
  | Ret (c, w) => Ret (cell17 C tmp c, w)
  | Exn (c, w) => Exn (cell17 C tmp c, w)
  | Abort => Abort
  | Undef => Undef
  end.

Lemma default17 : forall c w, o_ctor (at17 C tmp) INone (cell17 C tmp c) w = out17 (o_ctor C INone c w).
Proof.
  intros c w. unfold o_ctor, o_default, o_has, check, traits. cbn.
  destruct (lmax C =? 0); cbn; [reflexivity|]. destruct (lget C (lset C 0 (c_raw c)) =? 0); reflexivity.
Qed.

Lemma inplace17 : forall i c w, o_ctor (at17 C tmp) (IVal (false, i)) (cell17 C tmp c) w = out17 (o_ctor C (IVal i) c w).
Proof.
  intros i c w. unfold o_ctor, o_inplace, o_has, check, traits. cbn.
  destruct (ctor C i (c_raw c) w) as [[r w']|[r w']| |]; cbn; try reflexivity.
  destruct (lmax C =? 0) eqn:E; cbn; [reflexivity|]. destruct (lget C r =? 0); reflexivity.
Qed.

Lemma empty17 : forall c w, o_empty (at17 C tmp) (cell17 C tmp c) w = out17 (o_empty C c w).
Proof.
  intros c w. unfold o_empty, o_has, check, traits. cbn. destruct (lmax C =? 0); cbn; [reflexivity|].
  destruct (lget C (lset C 0 (c_raw c)) =? 0); reflexivity.
Qed.

Lemma has17 : forall c, o_has (at17 C tmp) (cell17 C tmp c) = o_has C c.
Proof. reflexivity. Qed.

Lemma destroy17 : forall c w,
  destroy_value (at17 C tmp) (dtor (at17 C tmp)) (cell17 C tmp c) w = out17 (destroy_value C (dtor C) c w).
Proof.
  intros c w. unfold destroy_value. cbn. destruct (c_alive c); [|reflexivity].
  destruct (nothrow (dtor C (c_raw c) w)) as [[r w']|[r w']| |]; reflexivity.
Qed.

Lemma reset17 : forall c w, o_reset (at17 C tmp) (cell17 C tmp c) w = out17 (o_reset C c w).
Proof.
  intros c w. unfold o_reset. rewrite has17, destroy17. cbn [at17 td]. destruct (td C); [apply empty17|].
  destruct (o_has C c) as [[|]| |]; cbn [check]; try reflexivity.
  destruct (destroy_value C (dtor C) c w) as [[c' w']|[c' w']| |]; cbn [out17]; try reflexivity. apply empty17.
Qed.

Lemma dtor17 : forall c w, o_dtor (at17 C tmp) (cell17 C tmp c) w = out17 (o_dtor C c w).
Proof.
  intros c w. unfold o_dtor. rewrite has17, destroy17. cbn [at17 td]. destruct (td C); [reflexivity|].
  destruct (o_has C c) as [[|]| |]; reflexivity.
Qed.

Lemma update17 : forall f c w, o_with_value (at17 C tmp) (f : raw (at17 C tmp) -> W -> out (raw (at17 C tmp) * W)) (cell17 C tmp c) w = out17 (o_with_value C f c w).
Proof.
  intros f c w. unfold o_with_value. rewrite has17. destruct (o_has C c) as [[|]| |]; cbn; try reflexivity.
  destruct (c_alive c); [|reflexivity]. destruct (f (c_raw c) w) as [[r w']|[r w']| |]; reflexivity.
Qed.

Lemma in_place_run17 : forall os l w, Forall in_place os ->
  run (at17 C tmp) (sem17 C tmp S) (map (call17 C tmp S) os) (vars17 l) w =
  match run C S os l w with
  | HDone ks l' w' => HDone ks (vars17 l') w'
  | HAbort ks => HAbort ks
  | HUndef => HUndef
  | HBad => HBad
  end.
Proof.
  induction os as [|o os IH]; intros l w H; [reflexivity|]. inversion H as [|? ? Ho Hos]; subst.
  assert (E : step (at17 C tmp) (sem17 C tmp S) (call17 C tmp S o) (vars17 l) w =
    match step C S o l w with
    | SRet l' w' => SRet (vars17 l') w'
    | SThrow l' w' => SThrow (vars17 l') w'
    | SAbort => SAbort
    | SUndef => SUndef
    | SBad => SBad
    end).
  { assert (K : forall m m17 x, (forall c, m17 (cell17 C tmp c) w = out17 (m c w)) ->
      on1 (at17 C tmp) (vars17 l) w x m17 =
      match on1 C l w x m with
      | SRet l' w' => SRet (vars17 l') w'
      | SThrow l' w' => SThrow (vars17 l') w'
      | SAbort => SAbort
      | SUndef => SUndef
      | SBad => SBad
      end).
    { intros m m17 x Hm. unfold on1. rewrite slot17. destruct (slot l x) as [c|]; [cbn|reflexivity].
      rewrite Hm. destruct (m c w) as [[c' w']|[c' w']| |]; cbn; try reflexivity;
      now rewrite <- (put17 l x (Some c')). }
    assert (N : forall m m17 x, m17 w = out17 (m w) ->
      new1 (at17 C tmp) (vars17 l) w x m17 =
      match new1 C l w x m with
      | SRet l' w' => SRet (vars17 l') w'
      | SThrow l' w' => SThrow (vars17 l') w'
      | SAbort => SAbort
      | SUndef => SUndef
      | SBad => SBad
      end).
    { intros m m17 x Hm. unfold new1. rewrite free17. destruct (free l x); [cbn|reflexivity].
      rewrite Hm. destruct (m w) as [[c' w']|[c' w']| |]; cbn; try reflexivity.
      now rewrite <- (put17 l x (Some c')). }
    destruct o as [x i g| | | | |x| | | |x| | | | | |x f fr]; try contradiction; cbn [step call17].
    - apply N. destruct i as [|i|[i|]]; try contradiction; [apply default17 | apply inplace17].
    - rewrite slot17. destruct (slot l x) as [c|]; [cbn [option_map]|reflexivity]. rewrite dtor17.
      destruct (o_dtor C c w) as [[c' w']|[c' w']| |]; cbn; try reflexivity; now rewrite <- (put17 l x None).
    - apply K. intros c. apply reset17.
    - apply K. intros c. apply update17. }
  cbn [map run]. rewrite E.
  destruct (step C S o l w) as [l' w'|l' w'| | |]; try reflexivity; rewrite (IH l' w' Hos);
  destruct (run C S os l' w'); reflexivity.
Qed.

Lemma slot_put_same : forall (l : vars (at17 C tmp)) x c d, slot l x = Some c \/ free l x = true ->
  slot (put l x (Some d)) x = Some d.
Proof.
  induction l as [|a l IH]; intros [|x] c d [E|E]; try discriminate E; try reflexivity; cbn;
  apply (IH x c d); [left|right]; exact E.
Qed.

Lemma calls17_dead : lawful C S -> tma C = true -> td C = false -> ~ stops S ->
  forall o l x w l' w', by_construct o x ->
  (forall c, slot l x = Some c -> inv C S c /\ c_alive c = false) ->
  step (at17 C tmp) (sem17 C tmp S) (call17 C tmp S o) (vars17 l) w = SRet l' w' ->
  exists c, slot l' x = Some c /\ c_alive c = true /\ ok S (c_raw c) /\ cnt S w' = cnt S w.
Proof.
  intros L M T NS o l x w l' w' Ho Hl E.
  assert (K : forall y i m17, x = y ->
    (forall c, inv C S c -> c_alive c = false ->
       m17 (cell17 C tmp c) w = o_construct (at17 C tmp) (ctor (at17 C tmp) (true, i)) (cell17 C tmp c) w) ->
    on1 (at17 C tmp) (vars17 l) w y m17 = SRet l' w' ->
    exists c, slot l' x = Some c /\ c_alive c = true /\ ok S (c_raw c) /\ cnt S w' = cnt S w).
  { intros y i m17 <- Hm Es. unfold on1 in Es. rewrite slot17 in Es. destruct (slot l x) as [c|] eqn:Sl; [|discriminate].
    cbn [option_map] in Es. destruct (Hl c eq_refl) as [Hi Ha]. rewrite (Hm c Hi Ha) in Es.
    destruct (o_construct (at17 C tmp) (ctor (at17 C tmp) (true, i)) (cell17 C tmp c) w) as [[c' w1]|[c' w1]| |] eqn:Ec;
      try discriminate. injection Es as <- <-.
    destruct (construct17_dead C S tmp L M T NS i c w c' w1 Hi Ha Ec) as (A & O & N & _).
    exists c'. split; [|auto]. apply (slot_put_same _ x (cell17 C tmp c)). left. rewrite slot17, Sl. reflexivity. }
  assert (Hn : forall c, inv C S c -> c_alive c = false -> o_has (at17 C tmp) (cell17 C tmp c) = Ok false).
  { intros c (_ & Hg & Hf) Ha. rewrite has17. unfold o_has, traits. destruct (N.eqb_spec (lmax C) 0) as [Z|Z]; cbn [negb].
    - rewrite (Hf Z), Ha. reflexivity.
    - rewrite (Hg ltac:(lia) Ha). reflexivity. }
  destruct o as [y [|i|[i|]] g| | | | | |y [|i|[i|]]| | | |y i|y i| | | |]; try contradiction; cbn [by_construct] in Ho;
    cbn [call17 step new17 set17] in E.
  - unfold new1 in E. rewrite free17 in E. destruct (free l y) eqn:Fr; [|discriminate].
    subst y. cbn [o_ctor] in E. unfold with_base in E.
    assert (D : forall c0, o_default (at17 C tmp) (cell17 C tmp g) = Ret c0 ->
      exists c1, c0 = cell17 C tmp c1 /\ inv C S c1 /\ c_alive c1 = false).
    { intros c0. unfold o_default, o_has, check, traits. cbn.
      destruct (N.eqb_spec (lmax C) 0) as [Z|Z]; cbn.
      - intros [= <-]. exists (mkcell (c_raw g) 0 false). repeat split; cbn; try discriminate; lia.
      - destruct (N.eqb_spec (lget C (lset C 0 (c_raw g))) 0) as [Q|Q]; cbn; [|discriminate].
        intros [= <-]. exists (mkcell (lset C 0 (c_raw g)) (c_flag g) false). repeat split; cbn; try discriminate; auto; lia. }
    destruct (o_default (at17 C tmp) (cell17 C tmp g)) as [c0|c0| |]; try discriminate.
    destruct (D c0 eq_refl) as (c1 & -> & Hi & Ha).
    destruct (o_construct (at17 C tmp) (ctor (at17 C tmp) (true, i)) (cell17 C tmp c1) w) as [[c' w1]|[c' w1]| |] eqn:Ec;
      try discriminate.
    + injection E as <- <-. destruct (construct17_dead C S tmp L M T NS i c1 w c' w1 Hi Ha Ec) as (A & O & N & _).
      exists c'. split; [|auto]. apply (slot_put_same _ x (cell17 C tmp g)). right. rewrite free17. exact Fr.
    + destruct (o_dtor (at17 C tmp) c' w1) as [[? ?]|[? ?]| |]; discriminate.
  - apply (K y i _ Ho) in E; [exact E|]. intros c Hi Ha. cbn [o_asgn]. rewrite (Hn c Hi Ha). cbn [check].
    now destruct (scalar (at17 C tmp)).
  - apply (K y i _ Ho) in E; [exact E|]. intros c Hi Ha. cbn [o_asgn]. now rewrite (Hn c Hi Ha).
  - apply (K y i _ Ho) in E; [exact E|]. intros c Hi Ha. unfold o_emplace, o_reset. rewrite (Hn c Hi Ha).
    cbn [at17 td]. now rewrite T.
  - apply (K y i _ Ho) in E; [exact E|]. intros c Hi Ha. unfold o_try_emplace. now rewrite (Hn c Hi Ha).
Qed.
End InPlace.

(** ** Instances *)

Theorem counted_lawful : lawful counted counted_sem.
Proof.
  constructor; cbn; try discriminate; try reflexivity; intros; try (left; split; [auto|]); repeat split; try lia.
Qed.

Theorem counted_quiet : quiet counted counted_sem.
Proof. constructor; red; cbn; intros; lia. Qed.

(** x.emplace(7); x.reset(): minus one instances.  In C++20 the same program leaves none. *)
Definition counted_prog : list (call counted counted_sem) :=
  [ New 0 INone (mkcell (C := counted) 0 0 false); Emplace 0 (7 : init counted); Reset 0; Destroy 0 ].

Lemma counted_unbalanced : exists (os : list (call counted counted_sem)) n ks l ks' l' w',
  Forall (fair _ _) os /\ Forall (gentle _ _) os /\
  run counted counted_sem os (repeat None n) 0%Z = HDone ks l 0%Z /\
  run (at17 counted (0 : raw counted)) (sem17 counted (0 : raw counted) counted_sem)
    (map (call17 counted (0 : raw counted) counted_sem) os) (repeat None n) 0%Z = HDone ks' l' w' /\
  l' = [None] /\ w' = (-1)%Z.
Proof.
  exists counted_prog, 1%nat. do 5 eexists. split; [repeat constructor|]. split.
  { apply Forall_forall. intros o _. apply quiet_gentle, counted_quiet. }
  split; [vm_compute; reflexivity|]. split; [vm_compute; reflexivity|]. split; reflexivity.
Qed.

Theorem hasty_lawful : lawful hasty hasty_sem.
Proof.
  constructor; cbn -[N.add N.sub]; auto; try discriminate.
  - intros i r [|[|] w]; cbn -[N.add N.sub]; auto; left; repeat split; lia.
  - intros i r w Hr. left. repeat split; lia.
  - intros l r Hl. lia.
  - intros r _ Hr. destruct (N.eqb_spec r 0); lia.
  - intros r. unfold umax_base. destruct (r =? 0); lia.
  - reflexivity.
Qed.

Lemma hasty_torn : ~ quiet_init hasty (5 : init hasty).
Proof. intros Q. specialize (Q (0 : raw hasty) [true] (6 : raw hasty) [] ltac:(cbn; lia) ltac:(cbn; lia) eq_refl). discriminate Q. Qed.

(** x.emplace(5), which throws; then x.has_value(), x.emplace(6).  In C++20 the option is taken for
    engaged after the exception. *)
Definition hasty_prog : list (call hasty hasty_sem) :=
  [ New 0 INone (mkcell (C := hasty) 3 0 false); Emplace 0 (5 : init hasty); TryEmplace 0 (6 : init hasty) ].

Lemma hasty_run :
  (match run hasty hasty_sem hasty_prog [None] [true] with
   | HDone ks l _ => values hasty hasty_sem l = [Some None] /\
       option_map (o_has hasty) (slot l 0) = Some (Ok true)
   | _ => False
   end) /\
  match run (at17 hasty (9 : raw hasty)) (sem17 hasty (9 : raw hasty) hasty_sem)
    (map (call17 hasty (9 : raw hasty) hasty_sem) hasty_prog) [None] [true] with
  | HDone ks l _ => ks = [false; true; false] /\ values _ (sem17 hasty (9 : raw hasty) hasty_sem) l = [Some (Some 6)]
  | _ => False
  end.
Proof. split; vm_compute; repeat split; reflexivity. Qed.
