(** The functional members meet their specifications. *)
From Coq Require Import NArith ZArith Bool List Lia ZifyBool ZifyN.
From Verif Require Import Outcome Words Lifetime LifetimeSpec LifetimeFacts Api ApiSpec.
Import ListNotations.
Open Scope N_scope.

Section Calls.
Context {W : Type} (C : cls W) (S : sem C).
Hypothesis L : lawful C S.

Lemma none_ok : forall W' (c : cell C) (w : W'),
  exists c', o_none C c w = Ret (c', w) /\ inv C S c' /\ c_alive c' = false.
Proof.
  intros W' c w. destruct (default_ok C S L c) as (c' & H & Hi & Ha). exists c'. unfold o_none. rewrite H. auto.
Qed.

Lemma eta_alive : forall c : cell C, c_alive c = true -> mkcell (c_raw c) (c_flag c) true = c.
Proof. intros [r f a]; cbn. now intros ->. Qed.

(** Which callback is called, when and on what. *)

Lemma with_get_alive : forall A (f : A -> raw C * W -> out (A * (raw C * W))) a c w, inv C S c -> c_alive c = true ->
  with_get C f a (c, w) =
  match f a (c_raw c, w) with
  | Ret (a', (r, w')) => Ret (a', (mkcell r (c_flag c) true, w'))
  | Exn (a', (r, w')) => Exn (a', (mkcell r (c_flag c) true, w'))
  | Abort => Abort
  | Undef => Undef
  end.
Proof. intros A f a c w Hi Ha. unfold with_get. rewrite (has_ok C S L c Hi). cbn. now rewrite Ha. Qed.

Lemma with_get_once : forall A a c w, inv C S c -> c_alive c = true ->
  calls_once (fun f : A -> raw C * W -> out (A * (raw C * W)) => with_get C f a (c, w)) a (c_raw c, w).
Proof.
  intros A a c w Hi Ha.
  exists (fun m => match m with
                   | Ret (a', (r, w')) => Ret (a', (mkcell r (c_flag c) true, w'))
                   | Exn (a', (r, w')) => Exn (a', (mkcell r (c_flag c) true, w'))
                   | Abort => Abort
                   | Undef => Undef
                   end).
  repeat split; auto.
  - intros (a' & r & w'). eauto.
  - intros f. now apply with_get_alive.
Qed.

Lemma build_once : forall W' (c : cell C) (w : W'), calls_once (fun f => o_build C f c w) (c_raw c) w.
Proof.
  intros W' c w.
  exists (fun m => match m with
                   | Ret (r, w') =>
                       if traits C then
                         let c' := mkcell r (c_flag c) true in
                         check (o_has C c') (fun h => if h then Ret (c', w') else Abort)
                       else Ret (mkcell r 1 true, w')
                   | Exn (r, w') => Exn (mkcell r (c_flag c) false, w')
                   | Abort => Abort
                   | Undef => Undef
                   end).
  repeat split; auto. intros (r & w'). eauto.
Qed.

Lemma once_comp : forall X Y A B X' Y' A' (m : (X -> Y -> out A) -> out B) x y
  (g : (X' -> Y' -> out A') -> X -> Y -> out A) x' y',
  calls_once m x y -> calls_once (fun f => g f x y) x' y' -> calls_once (fun f => m (g f)) x' y'.
Proof.
  intros X Y A B X' Y' A' m x y g x' y' (k & H1 & H2 & H3 & H4) (k' & J1 & J2 & J3 & J4).
  exists (fun o => k (k' o)). rewrite J1, J2. repeat split; auto.
  - intros e. destruct (J3 e) as [b ->]. apply H3.
  - intros f. now rewrite H4, J4.
Qed.

Lemma with_value_once : forall W' c (w : W'), inv C S c -> c_alive c = true ->
  calls_once (fun f => o_with_value C f c w) (c_raw c) w.
Proof.
  intros W' c w Hi Ha.
  exists (fun m => match m with
                   | Ret (r, w') => Ret (mkcell r (c_flag c) true, w')
                   | Exn (r, w') => Exn (mkcell r (c_flag c) true, w')
                   | Abort => Abort
                   | Undef => Undef
                   end).
  repeat split; auto.
  - intros (r & w'). eauto.
  - intros f. unfold o_with_value. rewrite (has_ok C S L c Hi). cbn. now rewrite Ha.
Qed.

Lemma has_value_and_calls : forall c w, inv C S c ->
  (c_alive c = true -> calls_once (fun f => a_has_value_and C f c w) (c_raw c) w) /\
  (c_alive c = false -> never_calls (fun f => a_has_value_and C f c w)).
Proof.
  intros c w Hi. split; intros Ha.
  - destruct (with_value_once _ c (false, w) Hi Ha) as (k & H1 & H2 & H3 & H4).
    exists k. repeat split; auto. intros f. unfold a_has_value_and. rewrite (has_ok C S L c Hi), Ha. cbn.
    now rewrite H4.
  - intros f f'. unfold a_has_value_and. now rewrite (has_ok C S L c Hi), Ha.
Qed.

Lemma inspect_calls : forall c w, inv C S c ->
  (c_alive c = true -> calls_once (fun f => a_inspect C f c w) (c_raw c) w) /\
  (c_alive c = false -> never_calls (fun f => a_inspect C f c w)).
Proof.
  intros c w Hi. split; intros Ha.
  - destruct (with_value_once _ c w Hi Ha) as (k & H1 & H2 & H3 & H4).
    exists k. repeat split; auto. intros f. unfold a_inspect. rewrite (has_ok C S L c Hi), Ha. cbn.
    now rewrite H4.
  - intros f f'. unfold a_inspect. now rewrite (has_ok C S L c Hi), Ha.
Qed.

Lemma filter_calls : forall p d c w, inv C S c ->
  (c_alive c = true -> calls_once (fun f => a_filter C p f d (c, w)) (c_raw c) w) /\
  (c_alive c = false -> never_calls (fun f => a_filter C p f d (c, w))).
Proof.
  intros p d c w Hi. split; intros Ha.
  - destruct (with_value_once _ c (false, w) Hi Ha) as (k & H1 & H2 & H3 & H4).
    exists (fun m => match k m with
                     | Ret (c', (b, w')) =>
                         if b : bool then o_build C (with_get C (from_value C p)) d (c', w') else o_none C d (c', w')
                     | Exn (c', (_, w')) => Exn (d, (c', w'))
                     | Abort => Abort
                     | Undef => Undef
                     end).
    rewrite H1, H2. repeat split; auto.
    + intros e. destruct (H3 e) as [(c' & b & w') ->]. eauto.
    + intros f. unfold a_filter. rewrite (has_ok C S L c Hi), Ha. cbn. now rewrite H4.
  - intros f f'. unfold a_filter. now rewrite (has_ok C S L c Hi), Ha.
Qed.

Lemma or_else_calls : forall p d c w, inv C S c ->
  (c_alive c = false -> calls_once (fun f => a_or_else C p f d (c, w)) d w) /\
  (c_alive c = true -> never_calls (fun f => a_or_else C p f d (c, w))).
Proof.
  intros p d c w Hi. split; intros Ha.
  - exists (fun m => match m with
                     | Ret (a', w') => Ret (a', (c, w'))
                     | Exn (a', w') => Exn (a', (c, w'))
                     | Abort => Abort
                     | Undef => Undef
                     end).
    repeat split; auto.
    + intros (a' & w'). eauto.
    + intros f. unfold a_or_else. cbn [fst]. now rewrite (has_ok C S L c Hi), Ha.
  - intros f f'. unfold a_or_else. cbn [fst]. now rewrite (has_ok C S L c Hi), Ha.
Qed.

Context (D : cls W).

Lemma and_then_calls : forall d c w, inv C S c ->
  (c_alive c = true -> calls_once (fun f => a_and_then C D f d (c, w)) d (c_raw c, w)) /\
  (c_alive c = false -> never_calls (fun f => a_and_then C D f d (c, w))).
Proof.
  intros d c w Hi. split; intros Ha.
  - destruct (with_get_once _ d c w Hi Ha) as (k & H1 & H2 & H3 & H4).
    exists k. repeat split; auto. intros f. unfold a_and_then. cbn [fst]. rewrite (has_ok C S L c Hi), Ha. apply H4.
  - intros f f'. unfold a_and_then. cbn [fst]. now rewrite (has_ok C S L c Hi), Ha.
Qed.

Lemma map_calls : forall d c w, inv C S c ->
  (c_alive c = true -> calls_once (fun f => a_map C D f d (c, w)) (c_raw d) (c_raw c, w)) /\
  (c_alive c = false -> never_calls (fun f => a_map C D f d (c, w))).
Proof.
  intros d c w Hi. split; intros Ha.
  - assert (H : calls_once (fun f => o_build D (with_get C f) d (c, w)) (c_raw d) (c_raw c, w)).
    { destruct (with_get_once _ (c_raw d) c w Hi Ha) as (k & H1 & H2 & H3 & H4).
      exists (fun m => match k m with
                   | Ret (r, w') =>
                       if traits D then
                         let c' := mkcell r (c_flag d) true in
                         check (o_has D c') (fun h => if h then Ret (c', w') else Abort)
                       else Ret (mkcell r 1 true, w')
                   | Exn (r, w') => Exn (mkcell r (c_flag d) false, w')
                   | Abort => Abort
                   | Undef => Undef
                   end).
      rewrite H1, H2. repeat split; auto.
      - intros e. destruct (H3 e) as [(r & w') ->]. eauto.
      - intros f. unfold o_build. now rewrite H4. }
    destruct H as (k & H1 & H2 & H3 & H4). exists k. repeat split; auto.
    intros f. unfold a_map. cbn [fst]. rewrite (has_ok C S L c Hi), Ha. apply H4.
  - intros f f'. unfold a_map. cbn [fst]. now rewrite (has_ok C S L c Hi), Ha.
Qed.

Lemma map_or_calls : forall i d c w, inv C S c ->
  (c_alive c = true -> calls_once (fun f => a_map_or C D i f d (c, w)) d (c_raw c, w)) /\
  (c_alive c = false -> never_calls (fun f => a_map_or C D i f d (c, w))).
Proof.
  intros i d c w Hi. split; intros Ha.
  - destruct (with_get_once _ d c w Hi Ha) as (k & H1 & H2 & H3 & H4).
    exists k. repeat split; auto. intros f. unfold a_map_or. cbn [fst]. rewrite (has_ok C S L c Hi), Ha. apply H4.
  - intros f f'. unfold a_map_or. cbn [fst]. now rewrite (has_ok C S L c Hi), Ha.
Qed.

Lemma map_or_else_calls : forall g f d c w, inv C S c ->
  (c_alive c = true -> calls_once (fun f => a_map_or_else C D g f d (c, w)) d (c_raw c, w) /\
                       never_calls (fun g => a_map_or_else C D g f d (c, w))) /\
  (c_alive c = false -> calls_once (fun g => a_map_or_else C D g f d (c, w)) d w /\
                        never_calls (fun f => a_map_or_else C D g f d (c, w))).
Proof.
  intros g f d c w Hi. split; intros Ha; split.
  - destruct (with_get_once _ d c w Hi Ha) as (k & H1 & H2 & H3 & H4).
    exists k. repeat split; auto. intros f'. unfold a_map_or_else. cbn [fst]. rewrite (has_ok C S L c Hi), Ha. apply H4.
  - intros g1 g2. unfold a_map_or_else. cbn [fst]. now rewrite (has_ok C S L c Hi), Ha.
  - exists (fun m => match m with
                     | Ret (a', w') => Ret (a', (c, w'))
                     | Exn (a', w') => Exn (a', (c, w'))
                     | Abort => Abort
                     | Undef => Undef
                     end).
    repeat split; auto.
    + intros (a' & w'). eauto.
    + intros g'. unfold a_map_or_else. cbn [fst]. now rewrite (has_ok C S L c Hi), Ha.
  - intros f1 f2. unfold a_map_or_else. cbn [fst]. now rewrite (has_ok C S L c Hi), Ha.
Qed.
End Calls.

(** Values and census. *)
Section Values.
Context {W : Type} (C D : cls W) (S : sem C) (T : sem D).
Hypothesis L : lawful C S.
Hypothesis LD : lawful D T.
Hypothesis Same : forall w, cnt T w = cnt S w.

Lemma with_get_ok : forall A (f : A -> raw C * W -> out (A * (raw C * W))) a c w (B : Prop) (R : A -> raw C -> W -> Prop) (E : raw C -> W -> Prop),
  inv C S c -> c_alive c = true ->
  post B (f a (c_raw c, w))
    (fun p => ok S (fst (snd p)) /\ R (fst p) (fst (snd p)) (snd (snd p)))
    (fun p => ok S (fst (snd p)) /\ E (fst (snd p)) (snd (snd p))) ->
  post B (with_get C f a (c, w))
    (fun p => inv C S (fst (snd p)) /\ c_alive (fst (snd p)) = true /\ R (fst p) (c_raw (fst (snd p))) (snd (snd p)))
    (fun p => inv C S (fst (snd p)) /\ c_alive (fst (snd p)) = true /\ E (c_raw (fst (snd p))) (snd (snd p))).
Proof using L.
  intros A f a c w B R E Hi Ha H. rewrite (with_get_alive C S L) by assumption.
  destruct (f a (c_raw c, w)) as [(a' & r & w')|(a' & r & w')| |]; cbn in *; auto.
  - destruct H as [H1 H2]. split; [now apply (inv_set C S)|auto].
  - destruct H as [H1 H2]. split; [now apply (inv_set C S)|auto].
Qed.

Lemma build_ok : forall W' (mk : raw D -> W' -> out (raw D * W')) d w (B : Prop) (R : raw D -> W' -> Prop) (E : W' -> Prop),
  (stops T -> B) ->
  post B (mk (c_raw d) w)
    (fun p => ok T (fst p) /\ R (fst p) (snd p) \/ (stops T /\ none_pattern D (fst p)))
    (fun p => E (snd p)) ->
  post B (o_build D mk d w)
    (fun p => inv D T (fst p) /\ c_alive (fst p) = true /\ R (c_raw (fst p)) (snd p))
    (fun p => E (snd p)).
Proof using LD.
  intros W' mk d w B R E HB H. unfold o_build.
  destruct (mk (c_raw d) w) as [[r w']|[r w']| |]; cbn [post fst snd] in *; auto.
  destruct (traits_spec D) as [[Ht Hm]|[Ht Hm]]; rewrite Ht.
  - destruct H as [(H1 & H2)|[Hst [_ Hn]]].
    + cbn zeta. assert (Hi : inv D T (mkcell r (c_flag d) true)) by (apply inv_alive; [exact H1|lia]).
      rewrite (has_ok D T LD) by exact Hi. cbn. auto.
    + unfold o_has. cbn. rewrite Ht, Hn. cbn. auto.
  - destruct H as [(H1 & H2)|[_ [Hx _]]]; [|lia]. cbn. split; [apply inv_alive; auto|auto].
Qed.

(** map. *)
Lemma map_ok : forall f R d c w, attempts S T f R -> inv C S c ->
  post (stops S \/ stops T) (a_map C D f d (c, w))
    (fun p => inv D T (fst p) /\ inv C S (fst (snd p)) /\
       match oval C S c with
       | None => oval D T (fst p) = None /\ snd p = (c, w)
       | Some v => exists u v', R v u v' /\ oval D T (fst p) = Some u /\ oval C S (fst (snd p)) = Some v'
       end /\
       (cnt S (snd (snd p)) + oown C S c = cnt S w + oown D T (fst p) + oown C S (fst (snd p)))%Z)
    (fun p => inv C S (fst (snd p)) /\ c_alive c = true /\ c_alive (fst (snd p)) = true /\
       (cnt S (snd (snd p)) + oown C S c = cnt S w + oown C S (fst (snd p)))%Z).
Proof using L LD.
  clear Same.
  intros f R d c w Hf Hi. unfold a_map. cbn [fst]. rewrite (has_ok C S L c Hi). cbn [check].
  destruct (c_alive c) eqn:Ha.
  - rewrite (oval_alive C S c Ha), (oown_alive C S c Ha).
    eapply post_mono.
    + apply build_ok with (B := stops S \/ stops T)
        (R := fun x (q : cell C * W) => inv C S (fst q) /\ c_alive (fst q) = true /\
            R (val S (c_raw c)) (val T x) (val S (c_raw (fst q))) /\
            (cnt S (snd q) + own S (c_raw c) = cnt S w + own T x + own S (c_raw (fst q)))%Z)
        (E := fun q : cell C * W => inv C S (fst q) /\ c_alive (fst q) = true /\
            (cnt S (snd q) + own S (c_raw c) = cnt S w + own S (c_raw (fst q)))%Z); [auto|].
      specialize (Hf (c_raw d) (c_raw c) w (proj1 Hi Ha)). rewrite (with_get_alive C S L) by assumption.
      destruct (f (c_raw d) (c_raw c, w)) as [(x & r & w')|(x & r & w')| |]; cbn in *; auto.
      * destruct Hf as [(H1 & H2 & H3 & H4)|H]; [left|now right]. split; [exact H1|].
        split; [now apply (inv_set C S)|auto].
      * destruct Hf as (H1 & H2). split; [now apply (inv_set C S)|auto].
    + cbn. intros p (H1 & H2 & H3 & H4 & H5 & H6).
      rewrite (oval_alive D T _ H2), (oown_alive D T _ H2), (oval_alive C S _ H4), (oown_alive C S _ H4). eauto 12.
    + cbn. intros p (H1 & H2 & H3). rewrite (oown_alive C S _ H2). auto.
  - rewrite (oval_dead C S c Ha), (dead_own C S c Ha).
    destruct (none_ok D T LD _ d (c, w)) as (d' & -> & Hd & Hda). cbn.
    rewrite (oval_dead D T _ Hda), (dead_own D T _ Hda), (dead_own C S c Ha). split; [exact Hd|]. split; [exact Hi|]. split; [auto|lia].
Qed.

(** map_or and map_or_else, map_or's default given by its constructor. *)
Lemma with_get_produces : forall f R d c w, produces S T f R -> inv C S c -> c_alive c = true ->
  post (stops S \/ stops T) (with_get C f d (c, w))
    (fun p => ok T (fst p) /\ inv C S (fst (snd p)) /\
       (exists v', R (val S (c_raw c)) (val T (fst p)) v' /\ oval C S (fst (snd p)) = Some v') /\
       (cnt S (snd (snd p)) + oown C S c = cnt S w + own T (fst p) + oown C S (fst (snd p)))%Z)
    (fun p => inv C S (fst (snd p)) /\ c_alive (fst (snd p)) = true /\
       (cnt S (snd (snd p)) + oown C S c = cnt S w + oown C S (fst (snd p)))%Z).
Proof using L.
  intros f R d c w Hf Hi Ha. rewrite (oown_alive C S c Ha).
  specialize (Hf d (c_raw c) w (proj1 Hi Ha)). rewrite (with_get_alive C S L) by assumption.
  destruct (f d (c_raw c, w)) as [(x & r & w')|(x & r & w')| |]; cbn in *; auto.
  - destruct Hf as (H1 & H2 & H3 & H4). split; [exact H1|]. split; [now apply (inv_set C S)|]. split; [|exact H4]. eauto.
  - destruct Hf as (H1 & H2). split; [now apply (inv_set C S)|auto].
Qed.

Lemma map_or_else_ok : forall g G f R d c w, produces S T f R -> makes T g G -> inv C S c ->
  post (stops S \/ stops T) (a_map_or_else C D g f d (c, w))
    (fun p => ok T (fst p) /\ inv C S (fst (snd p)) /\
       match oval C S c with
       | None => G (val T (fst p)) /\ fst (snd p) = c
       | Some v => exists v', R v (val T (fst p)) v' /\ oval C S (fst (snd p)) = Some v'
       end /\
       (cnt S (snd (snd p)) + oown C S c = cnt S w + own T (fst p) + oown C S (fst (snd p)))%Z)
    (fun p => inv C S (fst (snd p)) /\ c_alive (fst (snd p)) = c_alive c /\
       (cnt S (snd (snd p)) + oown C S c = cnt S w + oown C S (fst (snd p)))%Z).
Proof.
  intros g G f R d c w Hf Hg Hi. unfold a_map_or_else. cbn [fst]. rewrite (has_ok C S L c Hi). cbn [check].
  destruct (c_alive c) eqn:Ha.
  - rewrite (oval_alive C S c Ha). exact (with_get_produces f R d c w Hf Hi Ha).
  - rewrite (oval_dead C S c Ha), (dead_own C S c Ha). unfold lift. cbn [snd fst]. specialize (Hg d w).
    destruct (g d w) as [[x w']|[x w']| |]; cbn in *; auto; rewrite ?Same in Hg; rewrite (dead_own C S c Ha).
    + destruct Hg as (H1 & H2 & H3). split; [exact H1|]. split; [exact Hi|]. split; [auto|lia].
    + split; [exact Hi|]. split; [exact Ha|lia].
Qed.

Lemma map_or_ok : forall i f R d c w, produces S T f R -> inv C S c ->
  post (stops S \/ stops T) (a_map_or C D i f d (c, w))
    (fun p => inv C S (fst (snd p)) /\
       match oval C S c with
       | None => fst (snd p) = c /\ ((ok T (fst p) /\ denotes T i (val T (fst p))) \/ (stops T /\ none_pattern D (fst p)))
       | Some v => ok T (fst p) /\ exists v', R v (val T (fst p)) v' /\ oval C S (fst (snd p)) = Some v'
       end)
    (fun p => inv C S (fst (snd p)) /\ c_alive (fst (snd p)) = c_alive c /\
       (cnt S (snd (snd p)) + oown C S c = cnt S w + oown C S (fst (snd p)))%Z).
Proof.
  intros i f R d c w Hf Hi. unfold a_map_or. cbn [fst]. rewrite (has_ok C S L c Hi). cbn [check].
  destruct (c_alive c) eqn:Ha.
  - rewrite (oval_alive C S c Ha). eapply post_mono; [exact (with_get_produces f R d c w Hf Hi Ha)| |auto].
    cbn. intros p (H1 & H2 & H3 & H4). auto.
  - rewrite (oval_dead C S c Ha), (dead_own C S c Ha). unfold lift. cbn [snd fst].
    pose proof (l_ctor D T LD i d w) as Hg.
    destruct (ctor D i d w) as [[x w']|[x w']| |]; cbn in *; auto; rewrite ?Same in Hg.
    + split; [exact Hi|]. split; [reflexivity|]. destruct Hg as [(H1 & H2 & H3)|Hg]; auto.
    + rewrite (dead_own C S c Ha). split; [exact Hi|]. split; [exact Ha|lia].
Qed.

(** option_cast. *)
Lemma cast_attempts : forall conv, attempts S T (fun r sw => lift (ctor D (conv (fst sw))) r sw)
  (fun v u v' => v' = v /\ exists x, val S x = v /\ denotes T (conv x) u).
Proof.
  intros conv d r w Hr. unfold lift. cbn [snd fst]. pose proof (l_ctor D T LD (conv r) d w) as H.
  destruct (ctor D (conv r) d w) as [[x w']|[x w']| |]; cbn in *; auto; rewrite ?Same in H.
  - destruct H as [(H1 & H2 & H3)|H]; [left|now right]. split; [exact H1|]. split; [exact Hr|].
    split; [split; [reflexivity|]; exists r; auto|lia].
  - split; [exact Hr|lia].
Qed.
End Values.

Section Passing.
Context {W : Type} (C : cls W) (S : sem C).
Hypothesis L : lawful C S.

Lemma from_value_produces : forall p, produces S S (from_value C p) (fun v u v' => u = v /\ left_by S p v v').
Proof.
  intros [|] d r w Hr; cbn [from_value left_by].
  - unfold copy_from, lift. cbn [fst snd]. pose proof (l_cctor C S L r d w Hr) as H.
    destruct (cctor C r d w) as [[x w']|[x w']| |]; cbn in *; auto.
    + destruct H as (H1 & H2 & H3). split; [exact H1|]. split; [exact Hr|]. split; [auto|lia].
    + split; [exact Hr|lia].
  - pose proof (l_mctor C S L r d w Hr) as H.
    destruct (mctor C d (r, w)) as [(x & r' & w')|(x & r' & w')| |]; cbn in *; auto.
    destruct H as (H1 & H2 & H3 & H4 & H5). auto 8.
Qed.

Lemma from_option_ok : forall p d c w, quiet_pass C S p -> inv C S c ->
  post (stops S) (from_option C p d (c, w))
    (fun q => inv C S (fst q) /\ oval C S (fst q) = oval C S c /\ inv C S (fst (snd q)) /\
              opt_rel (left_by S p) (oval C S c) (oval C S (fst (snd q))) /\
              (cnt S (snd (snd q)) + oown C S c = cnt S w + oown C S (fst q) + oown C S (fst (snd q)))%Z)
    (fun q => inv C S (fst (snd q)) /\ c_alive (fst (snd q)) = c_alive c /\
              (cnt S (snd (snd q)) + oown C S c = cnt S w + oown C S (fst (snd q)))%Z).
Proof.
  intros [|] d c w Q Hi; cbn [from_option left_by quiet_pass] in *.
  - unfold lift. cbn [fst snd]. pose proof (cctor_ok C S L c d w Q Hi) as H.
    destruct (o_cctor C c d w) as [[x w']|[x w']| |]; cbn in *; auto.
    + destruct H as (H1 & H2 & H3). split; [exact H1|]. split; [exact H2|]. split; [exact Hi|]. split; [|lia].
      destruct (oval C S c); cbn; auto.
    + split; [exact Hi|]. split; [reflexivity|lia].
  - pose proof (mctor_ok C S L c d w Q Hi) as H. eapply post_mono; [exact H|auto|].
    cbn. intros q (H1 & H2 & H3 & H4). rewrite H2, H3. auto.
Qed.

Lemma value_or_ok : forall p i r c w, inv C S c ->
  post (stops S) (a_value_or C p i r (c, w))
    (fun q => inv C S (fst (snd q)) /\
       match oval C S c with
       | None => fst (snd q) = c /\ ((ok S (fst q) /\ denotes S i (val S (fst q))) \/ (stops S /\ none_pattern C (fst q)))
       | Some v => ok S (fst q) /\ val S (fst q) = v /\ exists v', left_by S p v v' /\ oval C S (fst (snd q)) = Some v'
       end)
    (fun q => inv C S (fst (snd q)) /\ c_alive (fst (snd q)) = c_alive c /\
       (cnt S (snd (snd q)) + oown C S c = cnt S w + oown C S (fst (snd q)))%Z).
Proof.
  intros p i r c w Hi. unfold a_value_or. cbn [fst]. rewrite (has_ok C S L c Hi). cbn [check].
  destruct (c_alive c) eqn:Ha.
  - rewrite (oval_alive C S c Ha). eapply post_mono.
    + pose proof (with_get_produces C C S S L _ _ r c w (from_value_produces p) Hi Ha) as H.
      instantiate (1 := fun q => inv C S (fst (snd q)) /\ c_alive (fst (snd q)) = true /\
        (cnt S (snd (snd q)) + oown C S c = cnt S w + oown C S (fst (snd q)))%Z).
      instantiate (1 := fun q => ok S (fst q) /\ inv C S (fst (snd q)) /\
       (exists v', (val S (fst q) = val S (c_raw c) /\ left_by S p (val S (c_raw c)) v') /\ oval C S (fst (snd q)) = Some v')).
      destruct (with_get C (from_value C p) r (c, w)); cbn in *; intuition.
    + cbn. intros q (H1 & H2 & v' & (H3 & H4) & H5). eauto 8.
    + auto.
  - rewrite (oval_dead C S c Ha). unfold lift. cbn [snd fst]. pose proof (l_ctor C S L i r w) as H.
    destruct (ctor C i r w) as [[x w']|[x w']| |]; cbn in *; auto.
    + split; [exact Hi|]. split; [reflexivity|]. destruct H as [(H1 & H2 & H3)|H]; auto.
    + split; [exact Hi|]. split; [exact Ha|]. rewrite (dead_own C S c Ha). lia.
Qed.

Lemma or_else_ok : forall p f F d c w, quiet_pass C S p -> makes (opt_sem C S) f F -> inv C S c ->
  post (stops S) (a_or_else C p f d (c, w))
    (fun q => inv C S (fst q) /\ inv C S (fst (snd q)) /\
       match oval C S c with
       | None => F (oval C S (fst q)) /\ fst (snd q) = c
       | Some v => oval C S (fst q) = Some v /\ exists v', left_by S p v v' /\ oval C S (fst (snd q)) = Some v'
       end /\
       (cnt S (snd (snd q)) + oown C S c = cnt S w + oown C S (fst q) + oown C S (fst (snd q)))%Z)
    (fun q => inv C S (fst (snd q)) /\ c_alive (fst (snd q)) = c_alive c /\
       (cnt S (snd (snd q)) + oown C S c = cnt S w + oown C S (fst (snd q)))%Z).
Proof.
  intros p f F d c w Q Hf Hi. unfold a_or_else. cbn [fst]. rewrite (has_ok C S L c Hi). cbn [check].
  destruct (c_alive c) eqn:Ha.
  - rewrite (oval_alive C S c Ha). eapply post_mono; [exact (from_option_ok p d c w Q Hi)| |].
    + cbn. rewrite (oval_alive C S c Ha). intros q (H1 & H2 & H3 & H4 & H5).
      destruct (oval C S (fst (snd q))) as [v'|]; [|contradiction]. eauto 8.
    + rewrite Ha. auto.
  - rewrite (oval_dead C S c Ha). unfold lift. cbn [snd fst]. specialize (Hf d w).
    destruct (f d w) as [[x w']|[x w']| |]; cbn in *; auto; rewrite (dead_own C S c Ha).
    + destruct Hf as (H1 & H2 & H3). split; [exact H1|]. split; [exact Hi|]. split; [auto|lia].
    + split; [exact Hi|]. split; [exact Ha|lia].
Qed.

Lemma has_value_and_ok : forall f R c w, asks S f R -> inv C S c ->
  post (stops S) (a_has_value_and C f c w)
    (fun q => inv C S (fst q) /\
       match oval C S c with
       | None => fst (snd q) = false /\ fst q = c /\ snd (snd q) = w
       | Some v => exists v', R v (fst (snd q)) v' /\ oval C S (fst q) = Some v'
       end /\ (cnt S (snd (snd q)) + oown C S c = cnt S w + oown C S (fst q))%Z)
    (fun q => inv C S (fst q) /\ c_alive (fst q) = true /\ c_alive c = true /\
       (cnt S (snd (snd q)) + oown C S c = cnt S w + oown C S (fst q))%Z).
Proof.
  intros f R c w Hf Hi. unfold a_has_value_and. rewrite (has_ok C S L c Hi). cbn [check].
  destruct (c_alive c) eqn:Ha.
  - rewrite (oval_alive C S c Ha), (oown_alive C S c Ha). unfold o_with_value.
    rewrite (has_ok C S L c Hi), Ha. cbn [check snd]. specialize (Hf (c_raw c) w (proj1 Hi Ha)).
    destruct (f (c_raw c) w) as [(r & b & w')|(r & b & w')| |]; cbn in *; auto.
    + destruct Hf as (H1 & H2 & H3). split; [now apply (inv_set C S)|]. split; [|exact H3]. eauto.
    + destruct Hf as (H1 & H2). split; [now apply (inv_set C S)|auto].
  - rewrite (oval_dead C S c Ha). cbn. split; [exact Hi|]. split; [auto|lia].
Qed.

Lemma inspect_ok : forall f R c w, visits S f R -> inv C S c ->
  post (stops S) (a_inspect C f c w)
    (fun q => inv C S (fst q) /\
       match oval C S c with
       | None => q = (c, w)
       | Some v => exists v', R v v' /\ oval C S (fst q) = Some v'
       end /\ (cnt S (snd q) + oown C S c = cnt S w + oown C S (fst q))%Z)
    (fun q => inv C S (fst q) /\ c_alive (fst q) = true /\ c_alive c = true /\
       (cnt S (snd q) + oown C S c = cnt S w + oown C S (fst q))%Z).
Proof.
  intros f R c w Hf Hi. unfold a_inspect. rewrite (has_ok C S L c Hi). cbn [check].
  destruct (c_alive c) eqn:Ha.
  - rewrite (oval_alive C S c Ha), (oown_alive C S c Ha). unfold o_with_value.
    rewrite (has_ok C S L c Hi), Ha. cbn [check snd]. specialize (Hf (c_raw c) w (proj1 Hi Ha)).
    destruct (f (c_raw c) w) as [(r & w')|(r & w')| |]; cbn in *; auto.
    + destruct Hf as (H1 & H2 & H3). split; [now apply (inv_set C S)|]. split; [|exact H3]. eauto.
    + destruct Hf as (H1 & H2). split; [now apply (inv_set C S)|auto].
  - rewrite (oval_dead C S c Ha). cbn. split; [exact Hi|]. split; [auto|lia].
Qed.

Lemma filter_ok : forall p f R d c w, asks S f R -> inv C S c ->
  post (stops S) (a_filter C p f d (c, w))
    (fun q => inv C S (fst q) /\ inv C S (fst (snd q)) /\
       match oval C S c with
       | None => oval C S (fst q) = None /\ snd q = (c, w)
       | Some v => (exists v1 v2, R v true v1 /\ left_by S p v1 v2 /\ oval C S (fst q) = Some v1 /\ oval C S (fst (snd q)) = Some v2) \/
                   (exists v1, R v false v1 /\ oval C S (fst q) = None /\ oval C S (fst (snd q)) = Some v1)
       end /\
       (cnt S (snd (snd q)) + oown C S c = cnt S w + oown C S (fst q) + oown C S (fst (snd q)))%Z)
    (fun q => inv C S (fst (snd q)) /\ c_alive (fst (snd q)) = true /\ c_alive c = true /\
       (cnt S (snd (snd q)) + oown C S c = cnt S w + oown C S (fst (snd q)))%Z).
Proof.
  intros p f R d c w Hf Hi. unfold a_filter. rewrite (has_ok C S L c Hi). cbn [check].
  destruct (c_alive c) eqn:Ha.
  - rewrite (oval_alive C S c Ha), (oown_alive C S c Ha). unfold o_with_value.
    rewrite (has_ok C S L c Hi), Ha. cbn [check snd]. specialize (Hf (c_raw c) w (proj1 Hi Ha)).
    destruct (f (c_raw c) w) as [(r & b & w')|(r & b & w')| |]; cbn in Hf; auto.
    + destruct Hf as (H1 & H2 & H3). set (c1 := mkcell r (c_flag c) true).
      assert (Hi1 : inv C S c1) by (now apply (inv_set C S)). destruct b.
      * eapply post_mono.
        -- apply build_ok with (T := S) (B := stops S)
             (R := fun x (q : cell C * W) => inv C S (fst q) /\
                (exists v', (val S x = val S r /\ left_by S p (val S r) v') /\ oval C S (fst q) = Some v') /\
                (cnt S (snd q) + own S r = cnt S w' + own S x + oown C S (fst q))%Z)
             (E := fun q : cell C * W => inv C S (fst q) /\ c_alive (fst q) = true /\
                (cnt S (snd q) + own S r = cnt S w' + oown C S (fst q))%Z); [exact L|auto|].
           pose proof (with_get_produces C C S S L _ _ (c_raw d) c1 w' (from_value_produces p) Hi1 eq_refl) as H.
           destruct (with_get C (from_value C p) (c_raw d) (c1, w')) as [q|q| |]; cbn in *; [left|exact H|tauto|exact H].
           destruct H as (A1 & A2 & A3 & A4). auto.
        -- cbn. intros q (A1 & A2 & A3 & (v' & (A4 & A5) & A6) & A7).
           rewrite (oval_alive C S _ A2), (oown_alive C S _ A2), A4.
           split; [exact A1|]. split; [exact A3|]. split; [left; eauto 8|lia].
        -- cbn. intros q (A1 & A2 & A3). split; [exact A1|]. split; [exact A2|]. split; [reflexivity|lia].
      * destruct (none_ok C S L _ d (c1, w')) as (d' & -> & Hd & Hda). cbn.
        rewrite (oval_dead C S _ Hda), (dead_own C S _ Hda). split; [exact Hd|]. split; [exact Hi1|].
        split; [right; eauto|]. unfold oown. cbn. lia.
    + destruct Hf as (H1 & H2). cbn. split; [now apply (inv_set C S)|auto].
  - rewrite (oval_dead C S c Ha), (dead_own C S c Ha).
    destruct (none_ok C S L _ d (c, w)) as (d' & -> & Hd & Hda). cbn.
    rewrite (oval_dead C S _ Hda), (dead_own C S _ Hda), (dead_own C S c Ha). split; [exact Hd|]. split; [exact Hi|]. split; [auto|lia].
Qed.

(** Operators. *)
Lemma pick_ok : forall (l : bool) p d a b w, quiet_pass C S p -> inv C S a -> inv C S b ->
  post (stops S) (pick C l p d a b w)
    (fun q => inv C S (fst q) /\ oval C S (fst q) = oval C S (if l then a else b) /\
       (if l then snd (snd q) = (b, snd (snd (snd q))) else fst (snd q) = a) /\
       inv C S (fst (snd q)) /\ inv C S (fst (snd (snd q))) /\
       opt_rel (left_by S p) (oval C S (if l then a else b)) (oval C S (if l then fst (snd q) else fst (snd (snd q)))) /\
       (cnt S (snd (snd (snd q))) + oown C S a + oown C S b =
        cnt S w + oown C S (fst q) + oown C S (fst (snd q)) + oown C S (fst (snd (snd q))))%Z)
    (fun q => inv C S (fst (snd q)) /\ inv C S (fst (snd (snd q))) /\
       c_alive (fst (snd q)) = c_alive a /\ c_alive (fst (snd (snd q))) = c_alive b /\
       (cnt S (snd (snd (snd q))) + oown C S a + oown C S b =
        cnt S w + oown C S (fst (snd q)) + oown C S (fst (snd (snd q))))%Z).
Proof.
  intros l p d a b w Q Ha Hb. unfold pick.
  pose proof (from_option_ok p d (if l then a else b) w Q) as H.
  assert (Hs : inv C S (if l then a else b)) by (destruct l; assumption). specialize (H Hs).
  destruct (from_option C p d (if l then a else b, w)) as [(d' & s & w')|(d' & s & w')| |]; cbn in *; try assumption;
    destruct l; cbn in *; destruct H as (H1 & H2 & H3).
  - destruct H3 as (H3 & H4 & H5). repeat split; auto; try apply H1; try apply H3; try apply Hb. lia.
  - destruct H3 as (H3 & H4 & H5). repeat split; auto; try apply H1; try apply H3; try apply Ha. lia.
  - repeat split; auto; try apply H1; try apply Hb. lia.
  - repeat split; auto; try apply H1; try apply Ha. lia.
Qed.

Definition operands (a b : cell C) (q : cell C * (cell C * (cell C * W))) (w : W) : Prop :=
  inv C S (fst (snd q)) /\ inv C S (fst (snd (snd q))) /\
  c_alive (fst (snd q)) = c_alive a /\ c_alive (fst (snd (snd q))) = c_alive b /\
  (cnt S (snd (snd (snd q))) + oown C S a + oown C S b =
   cnt S w + oown C S (fst (snd q)) + oown C S (fst (snd (snd q))))%Z.

Lemma rel_alive : forall R (a a' : cell C), opt_rel R (oval C S a) (oval C S a') -> c_alive a' = c_alive a.
Proof.
  intros R a a' H. unfold oval in H. destruct (c_alive a), (c_alive a'); cbn in H; auto; contradiction.
Qed.

Lemma pick_short : forall (l : bool) p d a b w, quiet_pass C S p -> inv C S a -> inv C S b ->
  post (stops S) (pick C l p d a b w)
    (fun q => inv C S (fst q) /\ oval C S (fst q) = oval C S (if l then a else b) /\
       inv C S (fst (snd q)) /\ inv C S (fst (snd (snd q))) /\
       c_alive (fst (snd q)) = c_alive a /\ c_alive (fst (snd (snd q))) = c_alive b /\
       (l = false \/ p = ByCopy -> oval C S (fst (snd q)) = oval C S a) /\
       (l = true \/ p = ByCopy -> oval C S (fst (snd (snd q))) = oval C S b) /\
       (cnt S (snd (snd (snd q))) + oown C S a + oown C S b =
        cnt S w + oown C S (fst q) + oown C S (fst (snd q)) + oown C S (fst (snd (snd q))))%Z)
    (fun q => operands a b q w).
Proof.
  intros l p d a b w Q Ha Hb. eapply post_mono; [exact (pick_ok l p d a b w Q Ha Hb)| |auto].
  cbn. intros q (H1 & H2 & H3 & H4 & H5 & H6 & H7). split; [exact H1|]. split; [exact H2|].
  split; [exact H4|]. split; [exact H5|].
  assert (Hc : forall x y : option (V S), opt_rel (left_by S ByCopy) x y -> y = x).
  { intros [x|] [y|]; cbn; intros; subst; auto; contradiction. }
  destruct l.
  - assert (E : fst (snd (snd q)) = b) by (now rewrite H3). rewrite E.
    rewrite E in H7. split; [now apply rel_alive in H6|]. split; [reflexivity|].
    split; [|split; [reflexivity|exact H7]]. intros [Hx| ->]; [discriminate|auto].
  - split; [now rewrite H3|]. split; [now apply rel_alive in H6|]. split; [now rewrite H3|].
    split; [|exact H7]. intros [Hx| ->]; [discriminate|auto].
Qed.

Lemma or_ok : forall pl pr d a b w, quiet_pass C S pl -> quiet_pass C S pr -> inv C S a -> inv C S b ->
  post (stops S) (a_or C pl pr d a b w)
    (fun q => inv C S (fst q) /\ oval C S (fst q) = first_of (oval C S a) (oval C S b) /\
       inv C S (fst (snd q)) /\ inv C S (fst (snd (snd q))) /\
       c_alive (fst (snd q)) = c_alive a /\ c_alive (fst (snd (snd q))) = c_alive b /\
       (oval C S a = None \/ pl = ByCopy -> oval C S (fst (snd q)) = oval C S a) /\
       (oval C S a <> None \/ pr = ByCopy -> oval C S (fst (snd (snd q))) = oval C S b) /\
       (cnt S (snd (snd (snd q))) + oown C S a + oown C S b =
        cnt S w + oown C S (fst q) + oown C S (fst (snd q)) + oown C S (fst (snd (snd q))))%Z)
    (fun q => operands a b q w).
Proof.
  intros pl pr d a b w Ql Qr Ha Hb. unfold a_or. rewrite (has_ok C S L a Ha). cbn [check].
  destruct (c_alive a) eqn:Ea.
  - rewrite (oval_alive C S a Ea). eapply post_mono; [exact (pick_short true pl d a b w Ql Ha Hb)| |auto].
    cbn. rewrite Ea, (oval_alive C S a Ea). cbn.
    intros q (H1 & H2 & H3 & H4 & H5 & H6 & H7 & H8 & H9). repeat split; auto; try apply H1; try apply H3; try apply H4.
    intros [X|X]; [discriminate|auto].
  - rewrite (oval_dead C S a Ea). eapply post_mono; [exact (pick_short false pr d a b w Qr Ha Hb)| |auto].
    cbn. rewrite Ea, (oval_dead C S a Ea). cbn.
    intros q (H1 & H2 & H3 & H4 & H5 & H6 & H7 & H8 & H9). repeat split; auto; try apply H1; try apply H3; try apply H4.
    intros [X|X]; [congruence|auto].
Qed.

Lemma xor_ok : forall pl pr d a b w, quiet_pass C S pl -> quiet_pass C S pr -> inv C S a -> inv C S b ->
  post (stops S) (a_xor C pl pr d a b w)
    (fun q => inv C S (fst q) /\ oval C S (fst q) = one_of (oval C S a) (oval C S b) /\
       inv C S (fst (snd q)) /\ inv C S (fst (snd (snd q))) /\
       c_alive (fst (snd q)) = c_alive a /\ c_alive (fst (snd (snd q))) = c_alive b /\
       (pl = ByCopy -> oval C S (fst (snd q)) = oval C S a) /\
       (pr = ByCopy -> oval C S (fst (snd (snd q))) = oval C S b) /\
       (cnt S (snd (snd (snd q))) + oown C S a + oown C S b =
        cnt S w + oown C S (fst q) + oown C S (fst (snd q)) + oown C S (fst (snd (snd q))))%Z)
    (fun q => operands a b q w).
Proof.
  intros pl pr d a b w Ql Qr Ha Hb. unfold a_xor. rewrite (has_ok C S L a Ha), (has_ok C S L b Hb). cbn [check].
  destruct (c_alive a) eqn:Ea; destruct (c_alive b) eqn:Eb; cbn [andb negb];
    rewrite ?(oval_alive C S a Ea), ?(oval_dead C S a Ea), ?(oval_alive C S b Eb), ?(oval_dead C S b Eb).
  - destruct (none_ok C S L _ d (a, (b, w))) as (d' & -> & Hd & Hda). cbn.
    rewrite (oval_dead C S _ Hda), (dead_own C S _ Hda), (oval_alive C S a Ea), (oval_alive C S b Eb).
    repeat split; auto; try apply Hd; try apply Ha; try apply Hb. lia.
  - eapply post_mono; [exact (pick_short true pl d a b w Ql Ha Hb)| |auto].
    cbn. rewrite Ea, Eb, (oval_alive C S a Ea), (oval_dead C S b Eb).
    intros q (H1 & H2 & H3 & H4 & H5 & H6 & H7 & H8 & H9). repeat split; auto; try apply H1; try apply H3; try apply H4.
  - eapply post_mono; [exact (pick_short false pr d a b w Qr Ha Hb)| |auto].
    cbn. rewrite Ea, Eb, (oval_alive C S b Eb), (oval_dead C S a Ea).
    intros q (H1 & H2 & H3 & H4 & H5 & H6 & H7 & H8 & H9). repeat split; auto; try apply H1; try apply H3; try apply H4.
  - destruct (none_ok C S L _ d (a, (b, w))) as (d' & -> & Hd & Hda). cbn.
    rewrite (oval_dead C S _ Hda), (dead_own C S _ Hda), (oval_dead C S a Ea), (oval_dead C S b Eb).
    repeat split; auto; try apply Hd; try apply Ha; try apply Hb. lia.
Qed.

Lemma or_assign_ok : forall i c w, (forall i', i = IVal i' \/ i = IConv (Some i') -> quiet_init C i') -> inv C S c ->
  post (stops S) (a_or_assign C i c w)
    (fun q => inv C S (fst q) /\
       match oval C S c with
       | Some v => q = (c, w)
       | None => odenotes C S i (oval C S (fst q))
       end /\ (cnt S (snd q) + oown C S c = cnt S w + oown C S (fst q))%Z)
    (fun q => inv C S (fst q) /\ oval C S c = None /\ (cnt S (snd q) + oown C S c = cnt S w + oown C S (fst q))%Z).
Proof.
  intros i c w Q Hi. unfold a_or_assign. rewrite (has_ok C S L c Hi). cbn [check]. destruct (c_alive c) eqn:Ha.
  - rewrite (oval_alive C S c Ha). cbn. split; [exact Hi|]. split; [reflexivity|lia].
  - rewrite (oval_dead C S c Ha). eapply post_mono; [exact (asgn_ok C S L i c w Q Hi)| |].
    + cbn. intros q H. intuition.
    + cbn. intros q H. intuition.
Qed.

Lemma or_assign_copy_ok : forall s c w, quiet_copy C S -> inv C S s -> inv C S c ->
  post (stops S) (a_or_assign_copy C s c w)
    (fun q => inv C S (fst q) /\ oval C S (fst q) = first_of (oval C S c) (oval C S s) /\
       (c_alive c = true -> q = (c, w)) /\ (cnt S (snd q) + oown C S c = cnt S w + oown C S (fst q))%Z)
    (fun q => inv C S (fst q) /\ oval C S c = None /\ (cnt S (snd q) + oown C S c = cnt S w + oown C S (fst q))%Z).
Proof.
  intros s c w Q Hs Hi. unfold a_or_assign_copy. rewrite (has_ok C S L c Hi). cbn [check]. destruct (c_alive c) eqn:Ha.
  - rewrite (oval_alive C S c Ha). cbn. rewrite (oval_alive C S c Ha). split; [exact Hi|]. split; [reflexivity|]. split; [auto|lia].
  - rewrite (oval_dead C S c Ha). eapply post_mono; [exact (cassign_ok C S L s c w Q Hs Hi)| |].
    + cbn. intros q (H1 & H2 & H3). split; [exact H1|]. split; [exact H2|]. split; [discriminate|exact H3].
    + cbn. intros q H. intuition.
Qed.

Lemma or_assign_move_ok : forall s c w, quiet_move C S -> inv C S s -> inv C S c ->
  post (stops S) (a_or_assign_move C c (s, w))
    (fun q => inv C S (fst q) /\ oval C S (fst q) = first_of (oval C S c) (oval C S s) /\
       (c_alive c = true -> q = (c, (s, w))) /\ inv C S (fst (snd q)) /\ c_alive (fst (snd q)) = c_alive s)
    (fun q => inv C S (fst q) /\ oval C S c = None /\ inv C S (fst (snd q))).
Proof.
  intros s c w Q Hs Hi. unfold a_or_assign_move. rewrite (has_ok C S L c Hi). cbn [check]. destruct (c_alive c) eqn:Ha.
  - rewrite (oval_alive C S c Ha). cbn. rewrite (oval_alive C S c Ha). split; [exact Hi|]. split; [reflexivity|]. auto.
  - rewrite (oval_dead C S c Ha). eapply post_mono; [exact (massign_ok C S L s c w Q Hs Hi)| |].
    + cbn. intros q (H1 & H2 & H3 & H4 & H5). split; [exact H1|]. split; [exact H2|]. split; [discriminate|].
      split; [exact H3|]. now apply rel_alive in H4.
    + cbn. intros q H. intuition.
Qed.
End Passing.
