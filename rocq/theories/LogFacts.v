(** Which calls to T each operation of option<T> makes. *)
From Coq Require Import NArith ZArith Bool List Lia ZifyBool ZifyN.
From Verif Require Import Outcome Words Lifetime LifetimeSpec LifetimeFacts Log.
Import ListNotations.

Lemma balance_app : forall a b, (balance (a ++ b) = balance a + balance b)%Z.
Proof. induction a as [|e a IH]; intros b; [reflexivity|]. unfold balance in *. cbn. rewrite IH. lia. Qed.

Section Facts.
Context {W : Type} (C : cls W) (S : sem C).
Hypothesis L : lawful C S.

Lemma rec1_post : forall e f r w (l : log) (R E : raw C * W -> Prop),
  post (stops S) (f r w) R E ->
  post (stops S) (rec1 C e f r (w, l))
    (fun p => R (fst p, fst (snd p)) /\ snd (snd p) = l ++ [(e, true)])
    (fun p => E (fst p, fst (snd p)) /\ snd (snd p) = l ++ [(e, false)]).
Proof.
  intros e f r w l R E H. unfold rec1. cbn [fst snd].
  destruct (f r w) as [[r' w']|[r' w']| |]; cbn in *; auto.
Qed.

Lemma rec2_post : forall e f r s w (l : log) (R E : raw C * (raw C * W) -> Prop),
  post (stops S) (f r (s, w)) R E ->
  post (stops S) (rec2 C e f r (s, (w, l)))
    (fun p => R (fst p, (fst (snd p), fst (snd (snd p)))) /\ snd (snd (snd p)) = l ++ [(e, true)])
    (fun p => E (fst p, (fst (snd p), fst (snd (snd p)))) /\ snd (snd (snd p)) = l ++ [(e, false)]).
Proof.
  intros e f r s w l R E H. unfold rec2. cbn [fst snd].
  destruct (f r (s, w)) as [[r' [s' w']]|[r' [s' w']]| |]; cbn in *; auto.
Qed.

Ltac bal := rewrite ?balance_app; cbn; destruct (td C); lia.

Theorem logged_lawful : lawful (logged C) (log_sem C S).
Proof.
  constructor; cbn -[balance].
  - intros i r [w l]. eapply post_mono; [apply rec1_post, (l_ctor _ _ L i r w)| |]; cbn -[balance].
    + intros p [[(H1 & H2 & H3)|H] E]; [left|now right]. rewrite E. repeat split; auto. bal.
    + intros p [H E]. rewrite E. bal.
  - intros s r [w l] Hs. eapply post_mono; [apply rec1_post, (l_cctor _ _ L s r w Hs)| |]; cbn -[balance].
    + intros p [(H1 & H2 & H3) E]. rewrite E. repeat split; auto. bal.
    + intros p [H E]. rewrite E. bal.
  - intros s r [w l] Hs. eapply post_mono; [apply rec2_post, (l_mctor _ _ L s r w Hs)| |]; cbn -[balance].
    + intros p [(H1 & H2 & H3 & H4 & H5) E]. rewrite E. repeat split; auto. bal.
    + intros p [(H1 & H2) E]. rewrite E. repeat split; auto. bal.
  - intros i r [w l] Hr. eapply post_mono; [apply rec1_post, (l_asgn _ _ L i r w Hr)| |]; cbn -[balance].
    + intros p [[(H1 & H2 & H3)|H] E]; [left|now right]. rewrite E. repeat split; auto. bal.
    + intros p [(H1 & H) E]. rewrite E. split; [exact H1|bal].
  - intros s r [w l] Hs Hr. eapply post_mono; [apply rec1_post, (l_cassign _ _ L s r w Hs Hr)| |]; cbn -[balance].
    + intros p [(H1 & H2 & H3) E]. rewrite E. repeat split; auto. bal.
    + intros p [(H1 & H) E]. rewrite E. split; [exact H1|bal].
  - intros s r [w l] Hs Hr. eapply post_mono; [apply rec2_post, (l_massign _ _ L s r w Hs Hr)| |]; cbn -[balance].
    + intros p [(H1 & H2 & H3 & H4 & H5) E]. rewrite E. repeat split; auto. bal.
    + intros p [(H1 & H2 & H3) E]. rewrite E. repeat split; auto. bal.
  - intros r [w l] Hr. eapply post_mono; [apply rec1_post, (l_self_cassign _ _ L r w Hr)| |]; cbn -[balance].
    + intros p [(H1 & H2 & H3) E]. rewrite E. repeat split; auto. bal.
    + intros p [(H1 & H) E]. rewrite E. split; [exact H1|bal].
  - intros r [w l] Hr. eapply post_mono; [apply rec1_post, (l_self_massign _ _ L r w Hr)| |]; cbn -[balance].
    + intros p [(H1 & H2 & H3) E]. rewrite E. repeat split; auto. bal.
    + intros p [(H1 & H) E]. rewrite E. split; [exact H1|bal].
  - intros a b [w l] Ha Hb. eapply post_mono; [apply rec2_post, (l_swp _ _ L a b w Ha Hb)| |]; cbn -[balance].
    + intros p [(H1 & H2 & H3 & H4 & H5) E]. rewrite E. repeat split; auto. bal.
    + intros p [(H1 & H2 & H3) E]. rewrite E. repeat split; auto. bal.
  - intros r [w l] Hr. eapply post_mono; [apply rec1_post, (l_self_swp _ _ L r w Hr)| |]; cbn -[balance].
    + intros p [(H1 & H2 & H3) E]. rewrite E. repeat split; auto. bal.
    + intros p [(H1 & H) E]. rewrite E. split; [exact H1|bal].
  - intros r [w l] Hr. eapply post_mono; [apply rec1_post, (l_dtor _ _ L r w Hr)| |]; cbn -[balance].
    + intros p [H E]. rewrite E. bal.
    + intros p [H E]. exact H.
  - exact (l_level _ _ L).
  - exact (l_ok_level _ _ L).
  - exact (l_bound _ _ L).
  - exact (l_max_bound _ _ L).
  - exact (l_tcc_td _ _ L).
  - exact (l_tmc_td _ _ L).
  - exact (l_scalar_td _ _ L).
  - intros r H _. now rewrite H.
  - exact (l_tmc_mv _ _ L).
  - exact (l_tma_selfmv _ _ L).
  - intros i r [w l] r' w' Hs. unfold rec1. cbn [fst snd]. destruct (ctor C i r w) as [[r1 w1]|[r1 w1]| |] eqn:E; try discriminate.
    intros H. injection H as <- _. eapply (l_scalar_throw _ _ L); eauto.
  - intros s r [w l] p Hs Hok. unfold rec1. cbn [fst snd]. destruct (cctor C s r w) as [[r1 w1]|[r1 w1]| |] eqn:E; try discriminate.
    destruct (l_scalar_copy _ _ L _ _ _ _ Hs Hok E).
Qed.

Lemma logged_quiet_init : forall i, quiet_init C i -> quiet_init (logged C) i.
Proof.
  intros i Q r [w l] r' w' Hm Hr. cbn. unfold rec1. cbn [fst snd].
  destruct (ctor C i r w) as [[r1 w1]|[r1 w1]| |] eqn:E; try discriminate. intros H. injection H as <- _.
  eapply Q; eauto.
Qed.

Lemma logged_quiet_copy : quiet_copy C S -> quiet_copy (logged C) (log_sem C S).
Proof.
  intros Q s r [w l] r' w' Hs Hm Hr. cbn. unfold rec1. cbn [fst snd].
  destruct (cctor C s r w) as [[r1 w1]|[r1 w1]| |] eqn:E; try discriminate. intros H. injection H as <- _.
  eapply Q; eauto.
Qed.

Lemma rec2_exn : forall e f r s w l r' x, rec2 C e f r (s, (w, l)) = Exn (r', x) -> exists y, f r (s, w) = Exn (r', y).
Proof.
  intros e f r s w l r' x. unfold rec2. cbn [fst snd].
  destruct (f r (s, w)) as [[r1 [s1 w1]]|[r1 [s1 w1]]| |] eqn:E; try discriminate. intros H. injection H as <- _. eauto.
Qed.

Lemma logged_quiet_move : quiet_move C S -> quiet_move (logged C) (log_sem C S).
Proof.
  intros Q s r [w l] r' x Hs Hm Hr H. destruct (rec2_exn _ _ _ _ _ _ _ _ H) as [y Hy].
  exact (Q s r w r' y Hs Hm Hr Hy).
Qed.

Theorem logged_quiet : quiet C S -> quiet (logged C) (log_sem C S).
Proof.
  intros [Q1 Q2 Q3]. constructor.
  - intros i. apply logged_quiet_init, Q1.
  - now apply logged_quiet_copy.
  - now apply logged_quiet_move.
Qed.

Theorem logged_steady : steady C S -> steady (logged C) (log_sem C S).
Proof.
  intros N. constructor; cbn.
  - intros i r [w l] p. unfold rec1. cbn [fst snd]. destruct (ctor C i r w) as [[r1 w1]|[r1 w1]| |] eqn:E; try discriminate.
    destruct (s_ctor _ _ N _ _ _ _ E).
  - intros s r [w l] p Hs. unfold rec1. cbn [fst snd]. destruct (cctor C s r w) as [[r1 w1]|[r1 w1]| |] eqn:E; try discriminate.
    destruct (s_cctor _ _ N _ _ _ _ Hs E).
  - intros s r [w l] p Hs. unfold rec2. cbn [fst snd]. destruct (mctor C r (s, w)) as [[r1 [s1 w1]]|[r1 [s1 w1]]| |] eqn:E; try discriminate.
    destruct (s_mctor _ _ N _ _ _ _ Hs E).
Qed.

(** Exact calls.  Only the truth of has_value() is needed here. *)
Notation LC := (logged C).
Notation linv := (inv LC (log_sem C S)).
Let LL := logged_lawful.

Lemma lhas : forall c : cell LC, linv c -> o_has LC c = Ok (c_alive c).
Proof. intros c H. apply (has_ok LC (log_sem C S) LL c H). Qed.

Lemma ret_nil : forall l : log, l = l ++ returned [].
Proof. intros. cbn. now rewrite app_nil_r. Qed.

Lemma thrown_one : forall (l : log) (e : event) (es' : list event), es' = [e] ->
  exists es0 e0, es' = es0 ++ [e0] /\ l ++ [(e, false)] = l ++ returned es0 ++ [(e0, false)].
Proof. intros l e es' ->. exists [], e. split; reflexivity. Qed.

Lemma empty_logs : forall c w l, logs l (o_empty LC c (w, l)) [] [].
Proof.
  intros c w l. unfold o_empty. destruct (traits LC).
  - cbn zeta. destruct (o_has LC _) as [[|]| |]; cbn; auto. apply ret_nil.
  - apply ret_nil.
Qed.

Lemma empty_keeps : forall c w, match o_empty LC c w with Ret (_, w') => w' = w | Exn _ => False | _ => True end.
Proof.
  intros c w. unfold o_empty. destruct (traits LC); [|reflexivity].
  cbn zeta. destruct (o_has LC _) as [[|]| |]; cbn; auto.
Qed.

Lemma reset_logs : forall c w l, linv c -> logs l (o_reset LC c (w, l)) (destroys (td C) (c_alive c)) [].
Proof.
  intros c w l Hc. unfold o_reset. change (td LC) with (td C). destruct (td C) eqn:Et.
  - unfold destroys. rewrite andb_false_r. apply empty_logs.
  - rewrite (lhas c Hc). cbn [check]. destruct (c_alive c) eqn:Ea; [|apply ret_nil].
    unfold destroy_value. rewrite Ea. cbn. unfold rec1. cbn.
    match goal with |- context [dtor C ?a ?b] => destruct (dtor C a b) as [[r w']|[r w']| |] end; cbn; auto.
    match goal with |- logs _ (o_empty LC ?c' ?w') _ _ => pose proof (empty_keeps c' w') as H; destruct (o_empty LC c' w') as [[a [b d]]|p| |]; cbn in *; auto; try contradiction end.
    now injection H as -> ->.
Qed.

Lemma dtor_logs : forall c w l, linv c -> logs l (o_dtor LC c (w, l)) (destroys (td C) (c_alive c)) [].
Proof.
  intros c w l Hc. unfold o_dtor. change (td LC) with (td C). destruct (td C) eqn:Et.
  - unfold destroys. rewrite andb_false_r. apply ret_nil.
  - rewrite (lhas c Hc). cbn [check]. destruct (c_alive c) eqn:Ea; [|apply ret_nil].
    unfold destroy_value. rewrite Ea. cbn. unfold rec1. cbn.
    match goal with |- context [dtor C ?a ?b] => destruct (dtor C a b) as [[r w']|[r w']| |] end; cbn; auto.
Qed.

Lemma construct_logs : forall e f c w l, logs l (o_construct LC (rec1 C e f) c (w, l)) [e] [e].
Proof.
  intros e f c w l. unfold o_construct. destruct (_ && _); [exact I|]. unfold rec1. cbn [fst snd].
  destruct (f (c_raw c) w) as [[r w']|[r w']| |]; cbn; auto.
  - destruct (traits LC); [|reflexivity]. cbn zeta. destruct (o_has LC _) as [[|]| |]; cbn; auto.
  - now apply thrown_one.
Qed.

Lemma construct_move_logs : forall c s w l, logs2 l (o_construct LC (from_cell LC (mctor LC)) c (s, (w, l))) [EMoveCtor] [EMoveCtor].
Proof.
  intros c s w l. unfold o_construct. destruct (_ && _); [exact I|]. unfold from_cell. destruct (c_alive s); [|exact I].
  cbn. unfold rec2. cbn [fst snd].
  match goal with |- context [mctor C ?a ?b] => destruct (mctor C a b) as [[r [s' w']]|[r [s' w']]| |] end; cbn; auto.
  - destruct (traits LC); [|reflexivity]. cbn zeta. destruct (o_has LC _) as [[|]| |]; cbn; auto.
  - now apply thrown_one.
Qed.

Lemma assign_logs : forall e f c w l, logs l (o_assign_value LC (rec1 C e f) c (w, l)) [e] [e].
Proof.
  intros e f c w l. unfold o_assign_value. destruct (c_alive c); [|exact I]. unfold rec1. cbn [fst snd].
  destruct (f (c_raw c) w) as [[r w']|[r w']| |]; cbn; auto.
  - destruct (o_has LC _) as [[|]| |]; cbn; auto.
  - now apply thrown_one.
Qed.

Lemma logs_weaken : forall W' A l (m : out (A * (W' * log))) es es', logs l m es [] -> logs l m es es'.
Proof.
  intros W' A l [[a [w l']]|[a [w l']]| |] es es' H; cbn in *; auto.
  destruct H as (es0 & e & E & _). destruct es0; discriminate.
Qed.

(** Copy assignment from another option. *)
Theorem cassign_logs : forall s c w l, linv s -> linv c ->
  let es := if tcc C && (tca C && td C) then []
            else if c_alive s then if c_alive c then [ECopyAssign] else [ECopyCtor]
            else destroys (td C) (c_alive c) in
  logs l (o_cassign LC s c (w, l)) es es.
Proof.
  intros s c w l Hs Hc. cbn zeta. unfold o_cassign. change (tcc LC) with (tcc C). change (tca LC) with (tca C). change (td LC) with (td C).
  destruct (tcc C && (tca C && td C)); [apply ret_nil|].
  rewrite (lhas s Hs), (lhas c Hc). cbn [check]. destruct (c_alive s) eqn:Es.
  - destruct (c_alive c) eqn:Ec; cbn [andb].
    + cbn. unfold rec1. cbn. match goal with |- context [cassign C ?a ?b ?d] => destruct (cassign C a b d) as [[r w']|[r w']| |] end; cbn; auto. now apply thrown_one.
    + apply construct_logs.
  - apply logs_weaken, reset_logs, Hc.
Qed.

Theorem massign_logs : forall s c w l, linv s -> linv c ->
  let es := if tmc C && (tma C && td C) then []
            else if c_alive s then if c_alive c then [EMoveAssign] else [EMoveCtor]
            else destroys (td C) (c_alive c) in
  logs2 l (o_massign LC c (s, (w, l))) es es.
Proof.
  intros s c w l Hs Hc. cbn zeta. unfold o_massign. change (tmc LC) with (tmc C). change (tma LC) with (tma C). change (td LC) with (td C).
  destruct (tmc C && (tma C && td C)); [apply ret_nil|]. cbn [fst].
  rewrite (lhas s Hs), (lhas c Hc). cbn [check]. destruct (c_alive s) eqn:Es.
  - destruct (c_alive c) eqn:Ec.
    + unfold from_cell. rewrite Es. cbn. unfold rec2. cbn.
      match goal with |- context [massign C ?a ?b] => destruct (massign C a b) as [[r [s' w']]|[r [s' w']]| |] end; cbn; auto. now apply thrown_one.
    + apply construct_move_logs.
  - unfold lift. cbn [fst snd]. pose proof (reset_logs c w l Hc) as H.
    destruct (o_reset LC c (w, l)) as [[c' [w' l']]|[c' [w' l']]| |]; cbn in *; auto.
    destruct H as (es0 & e & E & _). destruct es0; discriminate.
Qed.

Theorem self_cassign_logs : forall c w l, linv c ->
  let es := if tcc C && (tca C && td C) then [] else if c_alive c then [ECopyAssign] else [] in
  logs l (o_self_cassign LC c (w, l)) es es.
Proof.
  intros c w l Hc. cbn zeta. unfold o_self_cassign. change (tcc LC) with (tcc C). change (tca LC) with (tca C). change (td LC) with (td C).
  destruct (tcc C && (tca C && td C)); [apply ret_nil|].
  rewrite (lhas c Hc). cbn [check]. destruct (c_alive c) eqn:Ec.
  - cbn. unfold rec1. cbn. match goal with |- context [self_cassign C ?a ?b] => destruct (self_cassign C a b) as [[r w']|[r w']| |] end; cbn; auto. now apply thrown_one.
  - apply logs_weaken. pose proof (reset_logs c w l Hc) as H. now rewrite Ec in H.
Qed.

Theorem self_massign_logs : forall c w l, linv c ->
  let es := if tmc C && (tma C && td C) then [] else if c_alive c then [EMoveAssign] else [] in
  logs l (o_self_massign LC c (w, l)) es es.
Proof.
  intros c w l Hc. cbn zeta. unfold o_self_massign. change (tmc LC) with (tmc C). change (tma LC) with (tma C). change (td LC) with (td C).
  destruct (tmc C && (tma C && td C)); [apply ret_nil|].
  rewrite (lhas c Hc). cbn [check]. destruct (c_alive c) eqn:Ec.
  - cbn. unfold rec1. cbn. match goal with |- context [self_massign C ?a ?b] => destruct (self_massign C a b) as [[r w']|[r w']| |] end; cbn; auto. now apply thrown_one.
  - apply logs_weaken. pose proof (reset_logs c w l Hc) as H. now rewrite Ec in H.
Qed.

(** Assignment of none, of a value, of an option<U>. *)
Theorem asgn_logs : forall i c w l, linv c ->
  let es := match i with
            | INone | IConv None => destroys (td C) (c_alive c)
            | IVal _ => if scalar C then [ECtor] else if c_alive c then [EAssign] else [ECtor]
            | IConv (Some _) => if c_alive c then [EAssign] else [ECtor]
            end in
  logs l (o_asgn LC i c (w, l)) es es.
Proof.
  intros i c w l Hc. cbn zeta. destruct i as [|i|[i|]]; cbn [o_asgn].
  - apply logs_weaken, reset_logs, Hc.
  - change (scalar LC) with (scalar C). destruct (scalar C); [apply construct_logs|].
    rewrite (lhas c Hc). cbn [check]. destruct (c_alive c); [apply assign_logs|apply construct_logs].
  - rewrite (lhas c Hc). cbn [check]. destruct (c_alive c); [apply assign_logs|apply construct_logs].
  - apply logs_weaken, reset_logs, Hc.
Qed.

(** emplace and try_emplace. *)
Theorem emplace_logs : forall i c w l, linv c ->
  let es := destroys (td C) (c_alive c) ++ [ECtor] in
  logs l (o_emplace LC (o_reset LC) (ctor LC i) c (w, l)) es es.
Proof.
  intros i c w l Hc. cbn zeta. unfold o_emplace. pose proof (reset_logs c w l Hc) as H.
  destruct (o_reset LC c (w, l)) as [[c' [w' l']]|[c' [w' l']]| |]; cbn [logs] in *; auto.
  - subst l'. pose proof (construct_logs ECtor (ctor C i) c' w' (l ++ returned (destroys (td C) (c_alive c)))) as H.
    change (ctor LC i) with (rec1 C ECtor (ctor C i)).
    destruct (o_construct LC (rec1 C ECtor (ctor C i)) c' _) as [[c2 [w2 l2]]|[c2 [w2 l2]]| |]; cbn [logs] in *; auto.
    + rewrite H. unfold returned. rewrite map_app, app_assoc. reflexivity.
    + destruct H as (es0 & e & E & ->). destruct es0 as [|x [|y es0]]; try discriminate. injection E as <-.
      eexists. eexists. split; [reflexivity|]. cbn. now rewrite <- !app_assoc.
  - destruct H as (es0 & e & E & _). destruct es0; discriminate.
Qed.

Theorem try_emplace_logs : forall i c w l, linv c ->
  let es := if c_alive c then [] else [ECtor] in
  logs l (o_try_emplace LC i c (w, l)) es es.
Proof.
  intros i c w l Hc. cbn zeta. unfold o_try_emplace. rewrite (lhas c Hc). cbn [check].
  destruct (c_alive c); [apply ret_nil|]. apply construct_logs.
Qed.

(** Construction; when T's constructor throws, nothing else is called. *)
Lemma with_base_logs : forall (body : cell LC -> W * log -> out (cell LC * (W * log))) c w l es,
  (forall c0, linv c0 -> c_alive c0 = false -> logs l (body c0 (w, l)) es es) ->
  (forall c0 w0, linv c0 -> c_alive c0 = false -> post (stops S) (body c0 w0) (fun _ => True) (fun p => linv (fst p) /\ c_alive (fst p) = false)) ->
  logs l (with_base LC (o_dtor LC) body c (w, l)) es es.
Proof.
  intros body c w l es H HP. unfold with_base. destruct (default_ok LC (log_sem C S) LL c) as (c0 & -> & Hi & Ha).
  specialize (H c0 Hi Ha). specialize (HP c0 (w, l) Hi Ha).
  destruct (body c0 (w, l)) as [p|[c1 [w1 l1]]| |]; cbn in *; auto.
  destruct HP as [Hi1 Ha1]. pose proof (dtor_logs c1 w1 l1 Hi1) as Hd. rewrite Ha1 in Hd.
  destruct (o_dtor LC c1 (w1, l1)) as [[c2 [w2 l2]]|p| |]; cbn in *; auto.
  subst l2. unfold returned. cbn. rewrite app_nil_r. exact H.
Qed.

Theorem cctor_logs : forall s c w l, quiet_copy C S -> linv s ->
  let es := if tcc C then [] else if c_alive s then [ECopyCtor] else [] in
  logs l (o_cctor LC s c (w, l)) es es.
Proof.
  intros s c w l Q Hs. cbn zeta. unfold o_cctor. change (tcc LC) with (tcc C). destruct (tcc C); [apply ret_nil|].
  apply with_base_logs.
  - intros c0 Hi Ha. rewrite (lhas s Hs). cbn [check]. destruct (c_alive s); [apply construct_logs|apply ret_nil].
  - intros c0 [w0 l0] Hi Ha. rewrite (lhas s Hs). cbn [check]. destruct (c_alive s) eqn:Es; [|exact I].
    eapply post_mono; [apply (construct_copy_ok LC (log_sem C S) LL (c_raw s) c0 (w0, l0)); [exact (logged_quiet_copy Q)|now apply Hs|exact Hi|exact Ha]|auto|].
    cbn. intros p (H1 & H2 & _). auto.
Qed.

Theorem mctor_logs : forall s c w l, quiet_move C S -> linv s ->
  let es := if tmc C then [] else if c_alive s then [EMoveCtor] else [] in
  logs2 l (o_mctor LC c (s, (w, l))) es es.
Proof.
  intros s c w l Q Hs. cbn zeta. unfold o_mctor. change (tmc LC) with (tmc C). destruct (tmc C); [apply ret_nil|].
  unfold with_base. destruct (default_ok LC (log_sem C S) LL c) as (c0 & -> & Hi & Ha). cbn [fst].
  rewrite (lhas s Hs). cbn [check]. destruct (c_alive s) eqn:Es; [|apply ret_nil].
  pose proof (construct_move_logs c0 s w l) as H.
  pose proof (construct_move_ok LC (log_sem C S) LL s c0 (w, l) (logged_quiet_move Q) Hs Es Hi Ha) as HP.
  destruct (o_construct LC (from_cell LC (mctor LC)) c0 (s, (w, l))) as [p|[c1 [s1 [w1 l1]]]| |]; cbn [logs2 post fst snd] in *; auto.
  destruct HP as (Hi1 & Ha1 & _). unfold lift. cbn [fst snd].
  pose proof (dtor_logs c1 w1 l1 Hi1) as Hd. rewrite Ha1 in Hd.
  destruct (o_dtor LC c1 (w1, l1)) as [[c2 [w2 l2]]|[c2 [w2 l2]]| |]; cbn in *; auto.
  subst l2. unfold returned. cbn. rewrite app_nil_r. exact H.
Qed.

(** swap: one swap of values, or one move construction and one destruction. *)
Theorem swap_logs : forall a b w l, quiet_move C S -> linv a -> linv b ->
  let es := if c_alive a then if c_alive b then [ESwap] else EMoveCtor :: destroys (td C) true
            else if c_alive b then EMoveCtor :: destroys (td C) true else [] in
  logs2 l (o_swap LC a (b, (w, l))) es (firstn 1 es).
Proof.
  intros a b w l Q Ha Hb. cbn zeta. unfold o_swap. rewrite (lhas a Ha), (lhas b Hb). cbn [check].
  destruct (c_alive a) eqn:Ea, (c_alive b) eqn:Eb; cbn [negb andb].
  - cbn. unfold rec2. cbn. match goal with |- context [swp C ?x ?y] => destruct (swp C x y) as [[r [s' w']]|[r [s' w']]| |] end; cbn; auto. now apply thrown_one.
  - pose proof (construct_move_logs b a w l) as H.
    pose proof (construct_move_ok LC (log_sem C S) LL a b (w, l) (logged_quiet_move Q) Ha Ea Hb Eb) as HP.
    destruct (o_construct LC (from_cell LC (mctor LC)) b (a, (w, l))) as [[b' [a' [w' l']]]|[b' [a' [w' l']]]| |]; cbn [logs2 post fst snd] in *; auto.
    destruct HP as (_ & _ & _ & Hi & Hal & _). pose proof (reset_logs a' w' l' Hi) as Hr. rewrite Hal in Hr.
    destruct (o_reset LC a' (w', l')) as [[a2 [w2 l2]]|[a2 [w2 l2]]| |]; cbn in *; auto.
    rewrite Hr, H. rewrite <- app_assoc. reflexivity.
  - pose proof (construct_move_logs a b w l) as H.
    pose proof (construct_move_ok LC (log_sem C S) LL b a (w, l) (logged_quiet_move Q) Hb Eb Ha Ea) as HP.
    destruct (o_construct LC (from_cell LC (mctor LC)) a (b, (w, l))) as [[b' [a' [w' l']]]|[b' [a' [w' l']]]| |]; cbn [logs2 post fst snd] in *; auto.
    destruct HP as (_ & _ & _ & Hi & Hal & _). pose proof (reset_logs a' w' l' Hi) as Hr. rewrite Hal in Hr.
    destruct (o_reset LC a' (w', l')) as [[a2 [w2 l2]]|[a2 [w2 l2]]| |]; cbn in *; auto.
    rewrite Hr, H. rewrite <- app_assoc. reflexivity.
  - apply ret_nil.
Qed.

(** take with the copy of tmp elided. *)
Theorem take_logs : forall s c w l, quiet_move C S -> linv s ->
  let mv := if tmc C then [] else if c_alive s then [EMoveCtor] else [] in
  logs2 l (o_take LC true c (s, (w, l))) (mv ++ destroys (td C) (c_alive s)) mv.
Proof.
  intros s c w l Q Hs. cbn zeta. unfold o_take.
  pose proof (mctor_logs s c w l Q Hs) as H. cbn zeta in H.
  pose proof (mctor_ok LC (log_sem C S) LL s c (w, l) (logged_quiet_move Q) Hs) as HP.
  destruct (o_mctor LC c (s, (w, l))) as [[t [s' [w' l']]]|[t [s' [w' l']]]| |]; cbn [logs2 post fst snd] in *; auto.
  destruct HP as (_ & _ & Hi & Hrel & _).
  assert (Hal : c_alive s' = c_alive s).
  { unfold LifetimeSpec.oval in Hrel. destruct (c_alive s), (c_alive s'); cbn in Hrel; tauto. }
  pose proof (reset_logs s' w' l' Hi) as Hr. rewrite Hal in Hr.
  destruct (o_reset LC s' (w', l')) as [[s2 [w2 l2]]|[s2 [w2 l2]]| |]; cbn in *; auto.
  rewrite Hr, H. unfold returned. rewrite map_app, <- app_assoc. reflexivity.
Qed.

End Facts.
