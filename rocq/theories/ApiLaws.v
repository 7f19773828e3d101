(** Laws between the functional members, for callbacks with effects and exceptions. *)
From Coq Require Import NArith ZArith Bool List Lia ZifyBool ZifyN.
From Verif Require Import Outcome Words Lifetime LifetimeSpec LifetimeFacts Api ApiSpec ApiFacts.
Import ListNotations.
Open Scope N_scope.

(** End of the life of a temporary: of class T, and of class option<T>. *)
Definition drop_object {W A} (D : cls W) (x : raw D) (w : W) (k : W -> out A) : out A :=
  if td D then k w
  else match dtor D x w with
       | Ret (_, w') => k w'
       | Exn _ | Abort => Abort
       | Undef => Undef
       end.

Definition drop_option {W A} (D : cls W) (d : cell D) (w : W) (k : W -> out A) : out A :=
  match nothrow (o_dtor D d w) with
  | Ret (_, w') => k w'
  | Exn _ | Abort => Abort
  | Undef => Undef
  end.

Section ThreeClasses.
Context {W : Type} (C D E : cls W) (S : sem C) (T : sem D) (U : sem E).
Hypothesis L : lawful C S.
Hypothesis LD : lawful D T.
Hypothesis LE : lawful E U.

(** c.map(f).map(g), the intermediate option being a temporary in the storage [d]. *)
Definition map_map (f : raw D -> raw C * W -> out (raw D * (raw C * W)))
  (g : raw E -> raw D * W -> out (raw E * (raw D * W))) (d : cell D) (e : cell E) (cw : cell C * W)
  : out (cell E * (cell C * W)) :=
  match a_map C D f d cw with
  | Ret (d1, (c1, w1)) =>
      match a_map D E g e (d1, w1) with
      | Ret (e1, (d2, w2)) => drop_option D d2 w2 (fun w3 => Ret (e1, (c1, w3)))
      | Exn (e1, (d2, w2)) => drop_option D d2 w2 (fun w3 => Exn (e1, (c1, w3)))
      | Abort => Abort
      | Undef => Undef
      end
  | Exn (_, cw1) => Exn (e, cw1)
  | Abort => Abort
  | Undef => Undef
  end.

(** The callback x -> g(f(x)), the intermediate object being a temporary in the storage [x0]. *)
Definition after (f : raw D -> raw C * W -> out (raw D * (raw C * W)))
  (g : raw E -> raw D * W -> out (raw E * (raw D * W))) (x0 : raw D) (y0 : raw E) (rw : raw C * W)
  : out (raw E * (raw C * W)) :=
  match f x0 rw with
  | Ret (x1, (r1, w1)) =>
      match g y0 (x1, w1) with
      | Ret (y1, (x2, w2)) => drop_object D x2 w2 (fun w3 => Ret (y1, (r1, w3)))
      | Exn (y1, (x2, w2)) => drop_object D x2 w2 (fun w3 => Exn (y1, (r1, w3)))
      | Abort => Abort
      | Undef => Undef
      end
  | Exn (_, rw1) => Exn (y0, rw1)
  | Abort => Abort
  | Undef => Undef
  end.

Lemma drop_alive : forall A d w (k : W -> out A), inv D T d -> c_alive d = true ->
  drop_option D d w k = drop_object D (c_raw d) w k.
Proof.
  intros A d w k Hi Ha. unfold drop_option, drop_object, o_dtor. destruct (td D) eqn:Et; [reflexivity|].
  rewrite (has_ok D T LD d Hi), Ha. cbn. unfold destroy_value. rewrite Ha.
  destruct (dtor D (c_raw d) w) as [[x w']|[x w']| |]; reflexivity.
Qed.

Lemma drop_dead : forall A d w (k : W -> out A), inv D T d -> c_alive d = false -> drop_option D d w k = k w.
Proof.
  intros A d w k Hi Ha. unfold drop_option, o_dtor. destruct (td D) eqn:Et; [reflexivity|].
  now rewrite (has_ok D T LD d Hi), Ha.
Qed.

(** In-place construction with a proper result passes the check. *)
Lemma build_ret : forall X W' (mk : raw X -> W' -> out (raw X * W')) (Sx : @sem W X) d w r w', lawful X Sx ->
  mk (c_raw d) w = Ret (r, w') -> ok Sx r ->
  exists f, o_build X mk d w = Ret (mkcell r f true, w') /\ inv X Sx (mkcell r f true) /\
            f = if traits X then c_flag d else 1.
Proof.
  intros X W' mk Sx d w r w' LX Hm Hr. unfold o_build. rewrite Hm.
  destruct (traits_spec X) as [[Ht Hx]|[Ht Hx]]; rewrite Ht.
  - assert (Hi : inv X Sx (mkcell r (c_flag d) true)) by (apply inv_alive; [exact Hr|lia]).
    cbn zeta. rewrite (has_ok X Sx LX _ Hi). cbn. eauto.
  - eexists. split; [reflexivity|]. split; [|reflexivity]. apply inv_alive; auto.
Qed.

Theorem map_compose : forall f g Rf Rg d e c w, produces S T f Rf -> produces T U g Rg ->
  inv C S c -> c_alive e = false ->
  map_map f g d e (c, w) = a_map C E (after f g (c_raw d)) e (c, w).
Proof.
  intros f g Rf Rg d e c w Hf Hg Hi He. unfold map_map, a_map at 1 3. cbn [fst].
  rewrite (has_ok C S L c Hi). cbn [check]. destruct (c_alive c) eqn:Ha.
  - pose proof (Hf (c_raw d) (c_raw c) w (proj1 Hi Ha)) as H.
    set (h := after f g (c_raw d)).
    assert (HA : h (c_raw e) (c_raw c, w) =
      match f (c_raw d) (c_raw c, w) with
      | Ret (x1, (r1, w1)) =>
          match g (c_raw e) (x1, w1) with
          | Ret (y1, (x2, w2)) => drop_object D x2 w2 (fun w3 => Ret (y1, (r1, w3)))
          | Exn (y1, (x2, w2)) => drop_object D x2 w2 (fun w3 => Exn (y1, (r1, w3)))
          | Abort => Abort
          | Undef => Undef
          end
      | Exn (_, rw1) => Exn (c_raw e, rw1)
      | Abort => Abort
      | Undef => Undef
      end) by reflexivity.
    clearbody h.
    assert (HW : with_get C h (c_raw e) (c, w) =
      match h (c_raw e) (c_raw c, w) with
      | Ret (a', (r, w')) => Ret (a', (mkcell r (c_flag c) true, w'))
      | Exn (a', (r, w')) => Exn (a', (mkcell r (c_flag c) true, w'))
      | Abort => Abort
      | Undef => Undef
      end) by (now apply (with_get_alive C S L)).
    rewrite HA in HW. clear HA.
    assert (HF : with_get C f (c_raw d) (c, w) =
      match f (c_raw d) (c_raw c, w) with
      | Ret (a', (r, w')) => Ret (a', (mkcell r (c_flag c) true, w'))
      | Exn (a', (r, w')) => Exn (a', (mkcell r (c_flag c) true, w'))
      | Abort => Abort
      | Undef => Undef
      end) by (now apply (with_get_alive C S L)).
    destruct (f (c_raw d) (c_raw c, w)) as [(x1 & r1 & w1)|(x1 & r1 & w1)| |] eqn:Ef; cbn [post fst snd] in H.
    + destruct H as (H1 & H2 & _).
      destruct (build_ret D _ (with_get C f) T d (c, w) x1 _ LD HF H1) as (fl & -> & Hd1 & _).
      set (d1 := mkcell x1 fl true) in *. unfold a_map. cbn [fst]. rewrite (has_ok D T LD d1 Hd1). cbn [check d1 c_alive].
      pose proof (Hg (c_raw e) x1 w1 H1) as HG.
      assert (HGG : with_get D g (c_raw e) (d1, w1) =
        match g (c_raw e) (x1, w1) with
        | Ret (a', (r, w')) => Ret (a', (mkcell r fl true, w'))
        | Exn (a', (r, w')) => Exn (a', (mkcell r fl true, w'))
        | Abort => Abort
        | Undef => Undef
        end) by (now apply (with_get_alive D T LD)).
      destruct (g (c_raw e) (x1, w1)) as [(y1 & x2 & w2)|(y1 & x2 & w2)| |] eqn:Eg; cbn [post fst snd] in HG.
      * destruct HG as (G1 & G2 & _).
        destruct (build_ret E _ (with_get D g) U e (d1, w1) y1 _ LE HGG G1) as (fe & -> & He1 & Hfe).
        assert (Hd2 : inv D T (mkcell x2 fl true)) by exact (inv_set D T d1 x2 Hd1 eq_refl G2).
        rewrite (drop_alive _ (mkcell x2 fl true)) by auto. cbn [c_raw].
        unfold drop_object in *. destruct (td D).
        -- destruct (build_ret E _ (with_get C h) U e (c, w) y1 _ LE HW G1) as (fe' & -> & _ & Hfe').
           now rewrite Hfe, Hfe'.
        -- destruct (dtor D x2 w2) as [[x3 w3]|[x3 w3]| |]; [|now unfold o_build; rewrite HW..].
           destruct (build_ret E _ (with_get C h) U e (c, w) y1 _ LE HW G1) as (fe' & -> & _ & Hfe').
           now rewrite Hfe, Hfe'.
      * destruct HG as (G2 & _). unfold o_build at 1. rewrite HGG.
        assert (Hd2 : inv D T (mkcell x2 fl true)) by exact (inv_set D T d1 x2 Hd1 eq_refl G2).
        rewrite (drop_alive _ (mkcell x2 fl true)) by auto. cbn [c_raw].
        unfold drop_object in *. destruct (td D).
        -- unfold o_build. now rewrite HW.
        -- destruct (dtor D x2 w2) as [[x3 w3]|[x3 w3]| |]; unfold o_build; now rewrite HW.
      * unfold o_build. now rewrite HGG, HW.
      * unfold o_build. now rewrite HGG, HW.
    + unfold o_build. rewrite HF, HW. destruct e as [re fe ae]; cbn in *. now rewrite He.
    + unfold o_build. now rewrite HF, HW.
    + unfold o_build. now rewrite HF, HW.
  - destruct (none_ok D T LD _ d (c, w)) as (d1 & -> & Hd & Hda).
    unfold a_map. cbn [fst]. rewrite (has_ok D T LD d1 Hd), Hda. cbn [check].
    destruct (none_ok E U LE _ e (d1, w)) as (e1 & Hn & He1 & Hea). rewrite Hn.
    rewrite (drop_dead _ d1) by auto. unfold o_none in *. destruct (o_default E e); try discriminate.
    now injection Hn as <-.
Qed.

(** c.and_then(f).and_then(g). *)
Definition and_then_then (f : cell D -> raw C * W -> out (cell D * (raw C * W)))
  (g : cell E -> raw D * W -> out (cell E * (raw D * W))) (d : cell D) (e : cell E) (cw : cell C * W)
  : out (cell E * (cell C * W)) :=
  match a_and_then C D f d cw with
  | Ret (d1, (c1, w1)) =>
      match a_and_then D E g e (d1, w1) with
      | Ret (e1, (d2, w2)) => drop_option D d2 w2 (fun w3 => Ret (e1, (c1, w3)))
      | Exn (e1, (d2, w2)) => drop_option D d2 w2 (fun w3 => Exn (e1, (c1, w3)))
      | Abort => Abort
      | Undef => Undef
      end
  | Exn (_, cw1) => Exn (e, cw1)
  | Abort => Abort
  | Undef => Undef
  end.

(** The callback x -> f(x).and_then(g). *)
Definition kleisli (f : cell D -> raw C * W -> out (cell D * (raw C * W)))
  (g : cell E -> raw D * W -> out (cell E * (raw D * W))) (d : cell D) (e : cell E) (rw : raw C * W)
  : out (cell E * (raw C * W)) :=
  match f d rw with
  | Ret (d1, (r1, w1)) =>
      match a_and_then D E g e (d1, w1) with
      | Ret (e1, (d2, w2)) => drop_option D d2 w2 (fun w3 => Ret (e1, (r1, w3)))
      | Exn (e1, (d2, w2)) => drop_option D d2 w2 (fun w3 => Exn (e1, (r1, w3)))
      | Abort => Abort
      | Undef => Undef
      end
  | Exn (_, rw1) => Exn (e, rw1)
  | Abort => Abort
  | Undef => Undef
  end.

Theorem and_then_assoc : forall f g d e c w, inv C S c ->
  and_then_then f g d e (c, w) = a_and_then C E (kleisli f g d) e (c, w).
Proof.
  intros f g d e c w Hi. unfold and_then_then, a_and_then at 1 3. cbn [fst].
  rewrite (has_ok C S L c Hi). cbn [check]. destruct (c_alive c) eqn:Ha.
  - rewrite !(with_get_alive C S L) by assumption. unfold kleisli.
    destruct (f d (c_raw c, w)) as [(d1 & r1 & w1)|(d1 & r1 & w1)| |]; auto.
    destruct (a_and_then D E g e (d1, w1)) as [(e1 & d2 & w2)|(e1 & d2 & w2)| |]; auto; unfold drop_option;
      destruct (nothrow (o_dtor D d2 w2)) as [[x w3]|[x w3]| |]; reflexivity.
  - destruct (none_ok D T LD _ d (c, w)) as (d1 & -> & Hd & Hda).
    unfold a_and_then. cbn [fst]. rewrite (has_ok D T LD d1 Hd), Hda. cbn [check].
    destruct (none_ok E U LE _ e (d1, w)) as (e1 & Hn & He1 & Hea). rewrite Hn.
    rewrite (drop_dead _ d1) by auto. unfold o_none in *. destruct (o_default E e); try discriminate.
    now injection Hn as <-.
Qed.
End ThreeClasses.

Section TwoClasses.
Context {W : Type} (C D : cls W) (S : sem C) (T : sem D).
Hypothesis L : lawful C S.
Hypothesis LD : lawful D T.

(** option<T>(x).and_then(f) is f(x). *)
Theorem and_then_left_identity : forall f d x fl w, ok S x -> (lmax C = 0 -> fl = 1) ->
  a_and_then C D f d (mkcell x fl true, w) =
  match f d (x, w) with
  | Ret (d', (x', w')) => Ret (d', (mkcell x' fl true, w'))
  | Exn (d', (x', w')) => Exn (d', (mkcell x' fl true, w'))
  | Abort => Abort
  | Undef => Undef
  end.
Proof.
  intros f d x fl w Hx Hfl. assert (Hi : inv C S (mkcell x fl true)) by (now apply inv_alive).
  unfold a_and_then. cbn [fst]. rewrite (has_ok C S L _ Hi). cbn [check c_alive]. now rewrite (with_get_alive C S L).
Qed.

(** map(f) is and_then(x -> option(f(x))). *)
Theorem map_via_and_then : forall f d c w, inv C S c ->
  a_map C D f d (c, w) = a_and_then C D (o_build D f) d (c, w).
Proof.
  intros f d c w Hi. unfold a_map, a_and_then. cbn [fst]. rewrite (has_ok C S L c Hi). cbn [check].
  destruct (c_alive c) eqn:Ha; [|reflexivity].
  rewrite (with_get_alive C S L) by assumption. unfold o_build. rewrite (with_get_alive C S L) by assumption.
  destruct (f (c_raw d) (c_raw c, w)) as [(x & r & w')|(x & r & w')| |]; auto.
  destruct (traits D); [|reflexivity]. cbn zeta. destruct (o_has D _) as [[|]| |]; reflexivity.
Qed.

Lemma and_then_ok : forall f R d c w, produces S (opt_sem D T) f R -> inv C S c ->
  post (stops S \/ stops T) (a_and_then C D f d (c, w))
    (fun p => inv D T (fst p) /\ inv C S (fst (snd p)) /\
       match oval C S c with
       | None => oval D T (fst p) = None /\ snd p = (c, w)
       | Some v => exists v', R v (oval D T (fst p)) v' /\ oval C S (fst (snd p)) = Some v'
       end /\
       (cnt S (snd (snd p)) + oown C S c = cnt S w + oown D T (fst p) + oown C S (fst (snd p)))%Z)
    (fun p => inv C S (fst (snd p)) /\ c_alive c = true /\ c_alive (fst (snd p)) = true /\
       (cnt S (snd (snd p)) + oown C S c = cnt S w + oown C S (fst (snd p)))%Z).
Proof.
  intros f R d c w Hf Hi. unfold a_and_then. cbn [fst]. rewrite (has_ok C S L c Hi). cbn [check].
  destruct (c_alive c) eqn:Ha.
  - rewrite (oval_alive C S c Ha).
    pose proof (with_get_produces C (opt_cls D) S (opt_sem D T) L f R d c w Hf Hi Ha) as H.
    eapply post_mono; [exact H| |]; cbn; intros p H'; intuition.
  - rewrite (oval_dead C S c Ha), (dead_own C S c Ha).
    destruct (none_ok D T LD _ d (c, w)) as (d' & -> & Hd & Hda). cbn.
    rewrite (oval_dead D T _ Hda), (dead_own D T _ Hda), (dead_own C S c Ha). split; [exact Hd|]. split; [exact Hi|]. split; [auto|lia].
Qed.

(** operator&. *)
Lemma and_ok : forall p d a b w, (forall w, cnt T w = cnt S w) -> quiet_pass D T p -> inv C S a -> inv D T b ->
  post (stops T) (a_and C D p d a (b, w))
    (fun q => inv D T (fst q) /\ oval D T (fst q) = both_of (oval C S a) (oval D T b) /\ inv D T (fst (snd q)) /\
       c_alive (fst (snd q)) = c_alive b /\
       (p = ByCopy \/ oval C S a = None -> oval D T (fst (snd q)) = oval D T b) /\
       (cnt T (snd (snd q)) + oown D T b = cnt T w + oown D T (fst q) + oown D T (fst (snd q)))%Z)
    (fun q => inv D T (fst (snd q)) /\ c_alive (fst (snd q)) = c_alive b /\ oval C S a <> None /\
       (cnt T (snd (snd q)) + oown D T b = cnt T w + oown D T (fst (snd q)))%Z).
Proof.
  intros p d a b w Same Q Ha Hb. unfold a_and. rewrite (has_ok C S L a Ha). cbn [check].
  destruct (c_alive a) eqn:Ea.
  - rewrite (oval_alive C S a Ea). eapply post_mono; [exact (from_option_ok D T LD p d b w Q Hb)| |].
    + cbn. intros q (H1 & H2 & H3 & H4 & H5). split; [exact H1|]. split; [exact H2|]. split; [exact H3|].
      split; [now apply (rel_alive D T) in H4|]. split; [|exact H5].
      intros [->|X]; [|discriminate]. destruct (oval D T b), (oval D T (fst (snd q))); cbn in H4; subst; auto; contradiction.
    + cbn. intros q (H1 & H2 & H3). split; [exact H1|]. split; [exact H2|]. split; [discriminate|exact H3].
  - rewrite (oval_dead C S a Ea). destruct (none_ok D T LD _ d (b, w)) as (d' & -> & Hd & Hda). cbn.
    rewrite (oval_dead D T _ Hda), (dead_own D T _ Hda). repeat split; auto; try apply Hd; try apply Hb. lia.
Qed.
End TwoClasses.

Section OneClass.
Context {W : Type} (C : cls W) (S : sem C).
Hypothesis L : lawful C S.

Lemma from_value_attempts : forall p, attempts S S (from_value C p) (fun v u v' => u = v /\ left_by S p v v').
Proof.
  intros p d0 r w0 Hr. eapply post_mono; [exact (from_value_produces C S L p d0 r w0 Hr)| |auto]. cbn. auto.
Qed.

Lemma or_self : forall P : Prop, P \/ P -> P.
Proof. tauto. Qed.

Lemma post_weaken : forall A (B B' : Prop) (m : out A) R E, (B -> B') -> post B m R E -> post B' m R E.
Proof. intros A B B' [a|a| |] R E H; cbn; auto. Qed.

(** map with the identity (copying or moving the object) gives an equal option. *)
Theorem map_identity : forall p d c w, inv C S c ->
  post (stops S) (a_map C C (from_value C p) d (c, w))
    (fun q => inv C S (fst q) /\ oval C S (fst q) = oval C S c /\ inv C S (fst (snd q)) /\
              opt_rel (left_by S p) (oval C S c) (oval C S (fst (snd q))))
    (fun q => inv C S (fst (snd q)) /\ c_alive (fst (snd q)) = c_alive c).
Proof.
  intros p d c w Hi. eapply post_weaken; [apply or_self|].
  eapply post_mono; [exact (map_ok C C S S L L _ _ d c w (from_value_attempts p) Hi)| |].
  - cbn. intros q (H1 & H2 & H3 & H4). split; [exact H1|].
    destruct (c_alive c) eqn:Ha; unfold oval in H3 at 1; rewrite Ha in H3; unfold oval at 2 3; rewrite Ha.
    + destruct H3 as (u & v' & (-> & Hl) & Hq & Hs). rewrite Hq, Hs. auto.
    + destruct H3 as (Hq & Hs). rewrite Hq, Hs. cbn. unfold oval. rewrite Ha. auto.
  - cbn. intros q (H1 & H2 & H3 & H4). rewrite H2, H3. auto.
Qed.

(** filter(p) is and_then(x -> p(x) ? option(x) : none). *)
Definition keep_if (p : pass) (f : raw C -> W -> out (raw C * (bool * W))) (d : cell C) (rw : raw C * W)
  : out (cell C * (raw C * W)) :=
  match f (fst rw) (snd rw) with
  | Ret (r, (b, w)) => if b then o_build C (from_value C p) d (r, w) else o_none C d (r, w)
  | Exn (r, (_, w)) => Exn (d, (r, w))
  | Abort => Abort
  | Undef => Undef
  end.

Theorem filter_via_and_then : forall p f R d c w, asks S f R -> inv C S c ->
  a_filter C p f d (c, w) = a_and_then C C (keep_if p f) d (c, w).
Proof.
  intros p f R d c w Hf Hi. unfold a_filter, a_and_then. cbn [fst]. rewrite (has_ok C S L c Hi). cbn [check].
  destruct (c_alive c) eqn:Ha; [|reflexivity].
  rewrite (with_get_alive C S L) by assumption. unfold keep_if, o_with_value. cbn [fst snd].
  rewrite (has_ok C S L c Hi), Ha. cbn [check]. specialize (Hf (c_raw c) w (proj1 Hi Ha)).
  destruct (f (c_raw c) w) as [(r & b & w')|(r & b & w')| |]; cbn in Hf; auto.
  destruct Hf as (H1 & _). assert (Hi1 : inv C S (mkcell r (c_flag c) true)) by (now apply (inv_set C S)).
  destruct b.
  - unfold o_build. rewrite (with_get_alive C S L) by auto. cbn [c_raw c_flag].
    destruct (from_value C p (c_raw d) (r, w')) as [(x & r' & w'')|(x & r' & w'')| |]; auto.
    destruct (traits C); [|reflexivity]. cbn zeta. destruct (o_has C _) as [[|]| |]; reflexivity.
  - unfold o_none. destruct (o_default C d); reflexivity.
Qed.

(** c.or_else(f).or_else(g), the second call on the temporary made by the first. *)
Definition or_else_else (p : pass) (f g : cell C -> W -> out (cell C * W)) (d e : cell C) (cw : cell C * W)
  : out (cell C * (cell C * W)) :=
  match a_or_else C p f d cw with
  | Ret (d1, (c1, w1)) =>
      match a_or_else C ByMove g e (d1, w1) with
      | Ret (e1, (d2, w2)) => drop_option C d2 w2 (fun w3 => Ret (e1, (c1, w3)))
      | Exn (e1, (d2, w2)) => drop_option C d2 w2 (fun w3 => Exn (e1, (c1, w3)))
      | Abort => Abort
      | Undef => Undef
      end
  | Exn (_, cw1) => Exn (e, cw1)
  | Abort => Abort
  | Undef => Undef
  end.

(** The callback () -> f().or_else(g). *)
Definition otherwise (f g : cell C -> W -> out (cell C * W)) (d e : cell C) (w : W) : out (cell C * W) :=
  match f d w with
  | Ret (d1, w1) =>
      match a_or_else C ByMove g e (d1, w1) with
      | Ret (e1, (d2, w2)) => drop_option C d2 w2 (fun w3 => Ret (e1, w3))
      | Exn (e1, (d2, w2)) => drop_option C d2 w2 (fun w3 => Exn (e1, w3))
      | Abort => Abort
      | Undef => Undef
      end
  | Exn (_, w1) => Exn (e, w1)
  | Abort => Abort
  | Undef => Undef
  end.

Theorem or_else_assoc_empty : forall p f g d e c w, inv C S c -> c_alive c = false ->
  or_else_else p f g d e (c, w) = a_or_else C p (otherwise f g d) e (c, w).
Proof.
  intros p f g d e c w Hi Ha. unfold or_else_else, a_or_else at 1 3. cbn [fst].
  rewrite (has_ok C S L c Hi), Ha. cbn [check]. unfold lift, otherwise. cbn [fst snd].
  destruct (f d w) as [[d1 w1]|[d1 w1]| |]; auto.
  destruct (a_or_else C ByMove g e (d1, w1)) as [(e1 & d2 & w2)|(e1 & d2 & w2)| |]; auto;
    unfold drop_option; destruct (nothrow (o_dtor C d2 w2)) as [[x w3]|[x w3]| |]; reflexivity.
Qed.

(** With an engaged option neither callback runs and both sides have its value. *)
Theorem or_else_assoc_engaged : forall p f g d e c w, quiet_pass C S p -> quiet_move C S -> inv C S c -> c_alive c = true ->
  never_calls (fun f => or_else_else p f g d e (c, w)) /\ never_calls (fun g => or_else_else p f g d e (c, w)) /\
  never_calls (fun f => a_or_else C p (otherwise f g d) e (c, w)) /\
  never_calls (fun g => a_or_else C p (otherwise f g d) e (c, w)) /\
  post (stops S) (or_else_else p f g d e (c, w)) (fun q => oval C S (fst q) = oval C S c) (fun _ => True) /\
  post (stops S) (a_or_else C p (otherwise f g d) e (c, w)) (fun q => oval C S (fst q) = oval C S c) (fun _ => True).
Proof.
  intros p f g d e c w Qp Qm Hi Ha.
  assert (H1 : forall f d, a_or_else C p f d (c, w) = from_option C p d (c, w)).
  { intros f' d'. unfold a_or_else. cbn [fst]. now rewrite (has_ok C S L c Hi), Ha. }
  assert (H2 : forall f g, or_else_else p f g d e (c, w) =
    match from_option C p d (c, w) with
    | Ret (d1, (c1, w1)) =>
        match from_option C ByMove e (d1, w1) with
        | Ret (e1, (d2, w2)) => drop_option C d2 w2 (fun w3 => Ret (e1, (c1, w3)))
        | Exn (e1, (d2, w2)) => drop_option C d2 w2 (fun w3 => Exn (e1, (c1, w3)))
        | Abort => Abort
        | Undef => Undef
        end
    | Exn (_, cw1) => Exn (e, cw1)
    | Abort => Abort
    | Undef => Undef
    end).
  { intros f' g'. unfold or_else_else. rewrite H1. pose proof (from_option_ok C S L p d c w Qp Hi) as H.
    destruct (from_option C p d (c, w)) as [(d1 & c1 & w1)|(d1 & c1 & w1)| |]; auto. cbn in H.
    destruct H as (Hd1 & Hv & _). unfold a_or_else. cbn [fst]. rewrite (has_ok C S L d1 Hd1).
    assert (c_alive d1 = true) as ->; [|reflexivity].
    unfold oval in Hv. rewrite Ha in Hv. destruct (c_alive d1); [reflexivity|discriminate]. }
  split; [intros f1 f2; now rewrite !H2|]. split; [intros f1 f2; now rewrite !H2|].
  split; [intros f1 f2; now rewrite !H1|]. split; [intros f1 f2; now rewrite !H1|]. split.
  - rewrite H2. pose proof (from_option_ok C S L p d c w Qp Hi) as H.
    destruct (from_option C p d (c, w)) as [(d1 & c1 & w1)|(d1 & c1 & w1)| |]; cbn [post fst snd] in *; auto.
    destruct H as (Hd1 & Hv & _). pose proof (from_option_ok C S L ByMove e d1 w1 Qm Hd1) as H.
    destruct (from_option C ByMove e (d1, w1)) as [(e1 & d2 & w2)|(e1 & d2 & w2)| |]; cbn [post fst snd] in *; auto.
    + destruct H as (_ & Hv' & Hd2 & _). unfold drop_option. pose proof (dtor_ok C S L d2 w2 Hd2) as H.
      destruct (o_dtor C d2 w2) as [[x w3]|[x w3]| |]; cbn in *; auto; try contradiction. congruence.
    + destruct H as (Hd2 & _). unfold drop_option. pose proof (dtor_ok C S L d2 w2 Hd2) as H.
      destruct (o_dtor C d2 w2) as [[x w3]|[x w3]| |]; cbn in *; auto; try contradiction.
  - rewrite H1. eapply post_mono; [exact (from_option_ok C S L p e c w Qp Hi)| |]; cbn; tauto.
Qed.

(** Access. *)
Lemma access_ok : forall c, inv C S c ->
  (c_alive c = true -> a_get C c = Ret (c_raw c) /\ a_value C c = Ret (c_raw c) /\
     a_get_unchecked C c = Ret (c_raw c) /\ a_ptr_or_null C c = Ret (Some (c_raw c)) /\ ok S (c_raw c)) /\
  (c_alive c = false -> a_get C c = Abort /\ a_value C c = Exn (c_raw c) /\ a_ptr_or_null C c = Ret None /\
     a_get_unchecked C c = Undef).
Proof.
  intros c Hi. unfold a_value, a_ptr_or_null, a_get, a_get_unchecked. rewrite (has_ok C S L c Hi).
  split; intros Ha; rewrite Ha; cbn; auto. repeat split. exact (proj1 Hi Ha).
Qed.

End OneClass.

(** flatten. *)
Lemma flatten_ok : forall W (C : cls W) (S : sem C), (forall n, lawful (nest_cls n C) (nest_sem n C S)) ->
  forall n c, ok (nest_sem (Datatypes.S n) C S) c ->
  exists o, a_flatten C n c = Ret o /\ option_map (val S) o = collapse C S n (val (nest_sem (Datatypes.S n) C S) c) /\
            (forall r, o = Some r -> ok S r).
Proof.
  intros W C S HL. induction n as [|n IH]; intros c Hc.
  - change (inv C S c) in Hc. destruct (access_ok C S (HL 0%nat) c Hc) as [H1 H2]. cbn [a_flatten].
    cbn [collapse nest_sem opt_sem val]. change (raw (nest_cls 1 C)) with (cell C) in c. unfold oval.
    destruct (c_alive c) eqn:Ha.
    + destruct (H1 eq_refl) as (_ & _ & _ & -> & Hk). exists (Some (c_raw c)). split; [reflexivity|].
      split; [cbn; unfold oval; now rewrite Ha|]. intros r [= <-]. exact Hk.
    + destruct (H2 eq_refl) as (_ & _ & -> & _). exists None. split; [reflexivity|].
      split; [cbn; unfold oval; now rewrite Ha|discriminate].
  - change (inv (nest_cls (Datatypes.S n) C) (nest_sem (Datatypes.S n) C S) c) in Hc.
    destruct (access_ok _ _ (HL (Datatypes.S n)) c Hc) as [H1 H2].
    pose proof (has_ok _ _ (HL (Datatypes.S n)) c Hc) as Hh.
    change (a_flatten C (Datatypes.S n) c) with
      (check (o_has (nest_cls (Datatypes.S n) C) c) (fun h =>
        if h then match a_get (nest_cls (Datatypes.S n) C) c with
                  | Ret r => a_flatten C n r
                  | Exn _ => Undef
                  | Abort => Abort
                  | Undef => Undef
                  end
        else Ret None)).
    rewrite Hh. cbn [check].
    change (collapse C S (Datatypes.S n) (val (nest_sem (Datatypes.S (Datatypes.S n)) C S) c)) with
      (match oval (nest_cls (Datatypes.S n) C) (nest_sem (Datatypes.S n) C S) c with
       | Some x => collapse C S n x
       | None => None
       end).
    change (raw (nest_cls (Datatypes.S (Datatypes.S n)) C)) with (cell (nest_cls (Datatypes.S n) C)) in c.
    unfold oval. destruct (c_alive c) eqn:Ha.
    + destruct (H1 eq_refl) as (-> & _ & _ & _ & Hk). exact (IH (c_raw c) Hk).
    + exists None. split; [reflexivity|]. split; [reflexivity|discriminate].
Qed.
