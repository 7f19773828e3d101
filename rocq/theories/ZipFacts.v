(** zip, zip_with and unzip meet their specifications. *)
From Coq Require Import NArith ZArith Bool List Lia ZifyBool ZifyN.
From Verif Require Import Outcome Words Lifetime LifetimeSpec LifetimeFacts Api ApiSpec ApiFacts Tuple TupleSpec TupleFacts.
Import ListNotations.
Open Scope N_scope.

(** The contained objects replaced. *)
Fixpoint put {W} (Cs : list (cls W)) : cells Cs -> raws Cs -> cells Cs :=
  match Cs return cells Cs -> raws Cs -> cells Cs with
  | [] => fun _ _ => tt
  | C :: Cs => fun cs rs => (mkcell (fst rs) (c_flag (fst cs)) true, put Cs (snd cs) (snd rs))
  end.

Section Zip.
Context {W : Type} (count : W -> Z) (sh : shape).
Notation tsem := (tuple_sem count sh).

Lemma all_has_ok : forall Cs (Ss : sems Cs) cs, every (element count) Cs Ss -> invs Cs Ss cs ->
  all_has Cs cs = Ok (all_alive Cs cs).
Proof.
  induction Cs as [|C Cs IH]; intros Ss cs H Hi; cbn; [reflexivity|].
  destruct H as [(H1 & _) H2], Hi as [I1 I2]. rewrite (has_ok C (fst Ss) H1 _ I1).
  destruct (c_alive (fst cs)); cbn; [now apply IH with (snd Ss)|reflexivity].
Qed.

Lemma with_gets_alive : forall Cs (Ss : sems Cs) A (k : A -> raws Cs * W -> out (A * (raws Cs * W))) a cs w,
  every (element count) Cs Ss -> invs Cs Ss cs -> all_alive Cs cs = true ->
  with_gets Cs k a (cs, w) =
  match k a (raws_of Cs cs, w) with
  | Ret (a', (rs, w')) => Ret (a', (put Cs cs rs, w'))
  | Exn (a', (rs, w')) => Exn (a', (put Cs cs rs, w'))
  | Abort => Abort
  | Undef => Undef
  end.
Proof.
  induction Cs as [|C Cs IH]; intros Ss A k a cs w H Hi Ha; cbn -[Nat.eqb].
  - destruct cs. destruct (k a (tt, w)) as [(a' & [] & w')|(a' & [] & w')| |]; reflexivity.
  - destruct cs as [c cs]. cbn [fst snd] in *. destruct H as [(H1 & _) H2], Hi as [I1 I2]. cbn [fst snd] in *.
    cbn in Ha. apply andb_prop in Ha. destruct Ha as [A1 A2].
    rewrite (has_ok C (fst Ss) H1 _ I1). cbn [check]. rewrite A1. rewrite (IH (snd Ss)) by assumption. cbn [fst snd].
    destruct (k a (c_raw c, raws_of Cs cs, w)) as [(a' & [r rs] & w')|(a' & [r rs] & w')| |]; reflexivity.
Qed.

Lemma raws_ok : forall Cs (Ss : sems Cs) cs, invs Cs Ss cs -> all_alive Cs cs = true ->
  roks Cs Ss (raws_of Cs cs) /\ sequence count sh Cs Ss (ovals count sh Cs Ss cs) = Some (rvals count sh Cs Ss (raws_of Cs cs)) /\
  oowns Cs Ss cs = rowns Cs Ss (raws_of Cs cs).
Proof.
  induction Cs as [|C Cs IH]; intros Ss cs Hi Ha; cbn; [auto|].
  destruct Hi as [I1 I2]. cbn in Ha. apply andb_prop in Ha. destruct Ha as [A1 A2].
  destruct (IH (snd Ss) (snd cs) I2 A2) as (R1 & R2 & R3).
  split; [split; [now apply I1|exact R1]|]. unfold oval, oown. rewrite A1, R3. split; [|reflexivity].
  change (V (tuple_sem count sh (opts Cs) (osems Cs (snd Ss)))) with (V (tsem (opts Cs) (osems Cs (snd Ss)))).
  now rewrite R2.
Qed.

Lemma dead_sequence : forall Cs (Ss : sems Cs) cs, all_alive Cs cs = false ->
  sequence count sh Cs Ss (ovals count sh Cs Ss cs) = None.
Proof.
  induction Cs as [|C Cs IH]; intros Ss cs Ha; cbn in *; [discriminate|].
  unfold oval. destruct cs as [[r f a] cs]; cbn in *. destruct a; cbn in *; [|reflexivity]. now rewrite IH.
Qed.

Lemma put_ok : forall (Cs : list (cls W)) (Ss : sems Cs) cs rs, invs Cs Ss cs -> all_alive Cs cs = true -> roks Cs Ss rs ->
  invs Cs Ss (put Cs cs rs) /\ all_alive Cs (put Cs cs rs) = true /\ raws_of Cs (put Cs cs rs) = rs.
Proof.
  induction Cs as [|C Cs IH]; intros Ss cs rs Hi Ha Hr; cbn; [now destruct rs|].
  destruct Hi as [I1 I2]. cbn in Ha. apply andb_prop in Ha. destruct Ha as [A1 A2]. destruct Hr as [R1 R2].
  destruct (IH (snd Ss) (snd cs) (snd rs) I2 A2 R2) as (P1 & P2 & P3).
  split; [split; [now apply inv_set|exact P1]|]. split; [exact P2|]. rewrite P3. now destruct rs.
Qed.

Lemma engaged_alive : forall (Cs : list (cls W)) (cs cs' : cells Cs), all_alive Cs cs = true -> all_alive Cs cs' = true ->
  engaged Cs cs' = engaged Cs cs.
Proof.
  induction Cs as [|C Cs IH]; intros cs cs' H H'; cbn in *; [reflexivity|].
  apply andb_prop in H, H'. destruct H as [H1 H2], H' as [H3 H4]. rewrite H1, H3. f_equal. now apply IH.
Qed.

Lemma tuple_from_ok : forall Cs (Ss : sems Cs) ps, every (element count) Cs Ss ->
  makes_from count sh Cs Ss (tuple_cls sh Cs) (tsem Cs Ss) (tuple_from sh Cs ps)
    (fun vs v vs' => v = vs /\ lefts count sh Cs Ss ps vs vs').
Proof.
  induction Cs as [|C Cs IH]; intros Ss ps H t rs w Hr.
  - cbn. repeat split; auto. lia.
  - destruct H as [(H1 & H2 & H3) H]. destruct Hr as [R1 R2].
    destruct (tuple_element count sh Cs (snd Ss) H) as (K1 & K2 & K3).
    assert (E : forall w, cnt (fst Ss) w = cnt (tsem Cs (snd Ss)) w) by (intros x; now rewrite H3, K3).
    cbn [tuple_from tuple_sem tuple_cls].
    eapply post_imp.
    + apply (cons_build_from C (tuple_cls sh Cs) (fst Ss) (tsem Cs (snd Ss)) H1 K1 E) with
        (ok1 := ok (fst Ss)) (ok2 := roks Cs (snd Ss)) (own1 := own (fst Ss)) (own2 := rowns Cs (snd Ss))
        (RC := fun y x y' => val (fst Ss) x = val (fst Ss) y /\ left_by (fst Ss) (hd ByCopy ps) (val (fst Ss) y) (val (fst Ss) y'))
        (RD := fun y x y' => val (tsem Cs (snd Ss)) x = rvals count sh Cs (snd Ss) y /\
                             lefts count sh Cs (snd Ss) (tl ps) (rvals count sh Cs (snd Ss) y) (rvals count sh Cs (snd Ss) y')).
      * intros r y w1 Hy. eapply post_imp; [exact (from_value_produces C (fst Ss) H1 (hd ByCopy ps) r y w1 Hy)|tauto| |auto].
        intros p (A1 & A2 & A3 & A4). auto.
      * intros r y w1 Hy. eapply post_imp; [exact (IH (snd Ss) (tl ps) H r y w1 Hy)|tauto| |].
        -- intros p (A1 & A2 & A3 & A4). rewrite !K3. auto.
        -- intros p (A1 & A2). rewrite !K3. auto.
      * exact R1.
      * exact R2.
    + cbn. tauto.
    + intros [[a b] [[c d] w']]; cbn [fst snd]. intros (A1 & A2 & A3 & A4 & [A5 A6] & [A7 A8] & A9).
      cbn. rewrite !K3 in A9. repeat split; auto. now apply pair_eq.
    + intros [[a b] [[c d] w']]; cbn [fst snd]. intros (A1 & A2 & A3). cbn. rewrite !K3 in A3. auto.
Qed.

(** * zip_with *)
Section With.
Context (D : cls W) (T : sem D) (LD : lawful D T) (Dcnt : forall w, cnt T w = count w).

Lemma via_ok : forall X (mk : raw D -> X * W -> out (raw D * (X * W))) t d xw (B : Prop)
  (R : V T -> Z -> X -> W -> Prop) (E : X -> W -> Prop),
  (stops T -> B) ->
  post B (mk t xw) (fun p => ok T (fst p) /\ R (val T (fst p)) (own T (fst p)) (fst (snd p)) (snd (snd p)))
                   (fun p => E (fst (snd p)) (snd (snd p))) ->
  (forall v o x w v' o' w', R v o x w -> (count w' + o = count w + o')%Z -> v' = v -> R v' o' x w') ->
  (forall v o x w w', R v o x w -> (count w' + o = count w)%Z -> E x w') ->
  post B (via_temporary D mk t d xw)
    (fun p => inv D T (fst p) /\ exists v, oval D T (fst p) = Some v /\ R v (oown D T (fst p)) (fst (snd p)) (snd (snd p)))
    (fun p => E (fst (snd p)) (snd (snd p))).
Proof.
  intros X mk t d xw B R E HB Hm HR HE. unfold via_temporary.
  destruct (mk t xw) as [(t' & x & w)|(t' & x & w)| |]; cbn [post fst snd] in *; auto.
  destruct Hm as [Ht Hr].
  pose proof (build_ok D T LD (raw D * W) (mctor D) d (t', w) B
    (fun r sw => val T r = val T t' /\ ok T (fst sw) /\ (cnt T (snd sw) + own T t' = cnt T w + own T r + own T (fst sw))%Z)
    (fun sw => ok T (fst sw) /\ (cnt T (snd sw) + own T t' = cnt T w + own T (fst sw))%Z) HB) as Hb.
  assert (Hmc := l_mctor _ _ LD t' (c_raw d) w Ht).
  specialize (Hb (post_imp _ _ _ _ _ _ _ _ Hmc HB
     (fun p H => match H with conj A1 (conj A2 (conj A3 (conj A4 A5))) => or_introl (conj A1 (conj A2 (conj A3 A5))) end)
     (fun p H => H))).
  destruct (o_build D (mctor D) d (t', w)) as [(d' & t'' & w')|(d' & t'' & w')| |]; cbn [post fst snd] in *; auto.
  - destruct Hb as (B1 & B2 & B3 & B4 & B5). pose proof (l_dtor _ _ LD t'' w' B4) as Hd.
    destruct (dtor D t'' w') as [[t3 w3]|[t3 w3]| |]; cbn [nothrow post fst snd] in *; auto.
    split; [exact B1|]. exists (val T (c_raw d')). unfold oval, oown. rewrite B2. split; [reflexivity|].
    eapply HR; [exact Hr| |exact B3]. rewrite !Dcnt in *. lia.
  - destruct Hb as (B1 & B2). pose proof (l_dtor _ _ LD t'' w' B1) as Hd.
    destruct (dtor D t'' w') as [[t3 w3]|[t3 w3]| |]; cbn [nothrow post fst snd] in *; auto.
    eapply HE; [exact Hr|]. rewrite !Dcnt in *. lia.
Qed.

Lemma zip_with_ok : forall Cs (Ss : sems Cs) f R t d cs w, every (element count) Cs Ss -> invs Cs Ss cs ->
  makes_from count sh Cs Ss D T f R ->
  post (stops (tsem Cs Ss) \/ stops T) (a_zip_with Cs D f t d (cs, w))
    (fun q => inv D T (fst q) /\ invs Cs Ss (fst (snd q)) /\ engaged Cs (fst (snd q)) = engaged Cs cs /\
       (count (snd (snd q)) + oowns Cs Ss cs = count w + oown D T (fst q) + oowns Cs Ss (fst (snd q)))%Z /\
       match sequence count sh Cs Ss (ovals count sh Cs Ss cs) with
       | Some vs => exists v vs', oval D T (fst q) = Some v /\ R vs v vs' /\
                    sequence count sh Cs Ss (ovals count sh Cs Ss (fst (snd q))) = Some vs'
       | None => oval D T (fst q) = None /\ fst (snd q) = cs /\ snd (snd q) = w
       end)
    (fun q => invs Cs Ss (fst (snd q)) /\ engaged Cs (fst (snd q)) = engaged Cs cs /\
       (count (snd (snd q)) + oowns Cs Ss cs = count w + oowns Cs Ss (fst (snd q)))%Z).
Proof.
  intros Cs Ss f R t d cs w H Hi Hf. unfold a_zip_with. cbn [fst]. rewrite (all_has_ok Cs Ss cs H Hi). cbn [check].
  destruct (all_alive Cs cs) eqn:Ha.
  - destruct (raws_ok Cs Ss cs Hi Ha) as (R1 & R2 & R3). rewrite R2.
    eapply post_imp.
    + apply via_ok with (B := stops (tsem Cs Ss) \/ stops T)
        (R := fun v o cs' w' => invs Cs Ss cs' /\ all_alive Cs cs' = true /\
            (count w' + oowns Cs Ss cs = count w + o + oowns Cs Ss cs')%Z /\
            R (rvals count sh Cs Ss (raws_of Cs cs)) v (rvals count sh Cs Ss (raws_of Cs cs')))
        (E := fun cs' w' => invs Cs Ss cs' /\ all_alive Cs cs' = true /\ (count w' + oowns Cs Ss cs = count w + oowns Cs Ss cs')%Z).
      * tauto.
      * rewrite (with_gets_alive Cs Ss) by assumption. pose proof (Hf t (raws_of Cs cs) w R1) as Hp.
        destruct (f t (raws_of Cs cs, w)) as [(t' & rs & w')|(t' & rs & w')| |]; cbn [post fst snd] in *; auto.
        -- destruct Hp as (P1 & P2 & P3 & P4). destruct (put_ok Cs Ss cs rs Hi Ha P2) as (Q1 & Q2 & Q3).
           destruct (raws_ok Cs Ss _ Q1 Q2) as (_ & _ & Q4). rewrite Q4, Q3, R3. auto.
        -- destruct Hp as (P2 & P4). destruct (put_ok Cs Ss cs rs Hi Ha P2) as (Q1 & Q2 & Q3).
           destruct (raws_ok Cs Ss _ Q1 Q2) as (_ & _ & Q4). rewrite Q4, Q3, R3. auto.
      * intros v o cs' w1 v' o' w1' (A1 & A2 & A3 & A4) Ho ->. split; [exact A1|]. split; [exact A2|]. split; [lia|exact A4].
      * intros v o cs' w1 w1' (A1 & A2 & A3 & A4) Ho. split; [exact A1|]. split; [exact A2|lia].
    + auto.
    + intros [d' [cs' w']]; cbn [fst snd]. intros (A1 & v & A2 & A3 & A4 & A5 & A6).
      split; [exact A1|]. split; [exact A3|]. split; [now apply engaged_alive|]. split; [exact A5|].
      exists v, (rvals count sh Cs Ss (raws_of Cs cs')). split; [exact A2|]. split; [exact A6|]. now apply raws_ok.
    + intros [d' [cs' w']]; cbn [fst snd]. intros (A1 & A2 & A3). split; [exact A1|]. split; [now apply engaged_alive|exact A3].
  - rewrite (dead_sequence Cs Ss cs Ha). destruct (none_ok D T LD _ d (cs, w)) as (d' & -> & N1 & N2). cbn.
    unfold oval, oown. rewrite N2. repeat (split; [first [exact N1|exact Hi|reflexivity|lia]|]). auto.
Qed.
End With.

(** Which callback, when and on what. *)
Lemma zip_with_calls : forall Cs (Ss : sems Cs) D t d cs w, every (element count) Cs Ss -> invs Cs Ss cs ->
  (all_alive Cs cs = true -> calls_once (fun f => a_zip_with Cs D f t d (cs, w)) t (raws_of Cs cs, w)) /\
  (all_alive Cs cs = false -> never_calls (fun f => a_zip_with Cs D f t d (cs, w))).
Proof.
  intros Cs Ss D t d cs w H Hi. split; intros Ha.
  - exists (fun m => via_temporary D (fun _ _ => match m with
        | Ret (a', (rs, w')) => Ret (a', (put Cs cs rs, w'))
        | Exn (a', (rs, w')) => Exn (a', (put Cs cs rs, w'))
        | Abort => Abort
        | Undef => Undef
        end) t d (cs, w)).
    repeat split; auto.
    + intros (a' & rs & w'). cbn. eauto.
    + intros f. unfold a_zip_with. cbn [fst]. rewrite (all_has_ok Cs Ss cs H Hi), Ha. cbn [check].
      unfold via_temporary. now rewrite (with_gets_alive Cs Ss) by assumption.
  - intros f f'. unfold a_zip_with. cbn [fst]. now rewrite (all_has_ok Cs Ss cs H Hi), Ha.
Qed.

Lemma zip_do_calls : forall Cs (Ss : sems Cs) cs w, every (element count) Cs Ss -> invs Cs Ss cs ->
  (all_alive Cs cs = true -> calls_once (fun f => a_zip_do Cs (fun sw => f tt sw) (cs, w)) tt (raws_of Cs cs, w)) /\
  (all_alive Cs cs = false -> never_calls (fun f => a_zip_do Cs f (cs, w))).
Proof.
  intros Cs Ss cs w H Hi. split; intros Ha.
  - exists (fun m => match m with
        | Ret (rs, w') => Ret (put Cs cs rs, w')
        | Exn (rs, w') => Exn (put Cs cs rs, w')
        | Abort => Abort
        | Undef => Undef
        end).
    repeat split; auto.
    + intros (rs & w'). cbn. eauto.
    + intros f. unfold a_zip_do. cbn [fst]. rewrite (all_has_ok Cs Ss cs H Hi), Ha. cbn [check].
      rewrite (with_gets_alive Cs Ss) by assumption. destruct (f tt (raws_of Cs cs, w)) as [[rs w']|[rs w']| |]; reflexivity.
  - intros f f'. unfold a_zip_do. cbn [fst]. now rewrite (all_has_ok Cs Ss cs H Hi), Ha.
Qed.

Lemma zip_do_ok : forall Cs (Ss : sems Cs) f R cs w, every (element count) Cs Ss -> invs Cs Ss cs ->
  touches count sh Cs Ss f R ->
  post (stops (tsem Cs Ss)) (a_zip_do Cs f (cs, w))
    (fun q => invs Cs Ss (fst q) /\ engaged Cs (fst q) = engaged Cs cs /\
       (count (snd q) + oowns Cs Ss cs = count w + oowns Cs Ss (fst q))%Z /\
       match sequence count sh Cs Ss (ovals count sh Cs Ss cs) with
       | Some vs => exists vs', R vs vs' /\ sequence count sh Cs Ss (ovals count sh Cs Ss (fst q)) = Some vs'
       | None => q = (cs, w)
       end)
    (fun q => invs Cs Ss (fst q) /\ engaged Cs (fst q) = engaged Cs cs /\
       (count (snd q) + oowns Cs Ss cs = count w + oowns Cs Ss (fst q))%Z).
Proof.
  intros Cs Ss f R cs w H Hi Hf. unfold a_zip_do. cbn [fst]. rewrite (all_has_ok Cs Ss cs H Hi). cbn [check].
  destruct (all_alive Cs cs) eqn:Ha.
  - destruct (raws_ok Cs Ss cs Hi Ha) as (R1 & R2 & R3). rewrite R2.
    rewrite (with_gets_alive Cs Ss) by assumption. pose proof (Hf (raws_of Cs cs) w R1) as Hp.
    destruct (f (raws_of Cs cs, w)) as [[rs w']|[rs w']| |]; cbn [post fst snd] in *; auto.
    + destruct Hp as (P1 & P2 & P3). destruct (put_ok Cs Ss cs rs Hi Ha P1) as (Q1 & Q2 & Q3).
      destruct (raws_ok Cs Ss _ Q1 Q2) as (_ & Q4 & Q5). rewrite Q5, Q4, Q3, R3.
      split; [exact Q1|]. split; [now apply engaged_alive|]. split; [exact P3|]. eauto.
    + destruct Hp as (P1 & P3). destruct (put_ok Cs Ss cs rs Hi Ha P1) as (Q1 & Q2 & Q3).
      destruct (raws_ok Cs Ss _ Q1 Q2) as (_ & _ & Q5). rewrite Q5, Q3, R3.
      split; [exact Q1|]. split; [now apply engaged_alive|exact P3].
  - rewrite (dead_sequence Cs Ss cs Ha). cbn. repeat split; auto.
Qed.

(** * zip *)
Lemma zip_ok : forall Cs (Ss : sems Cs) ps t d cs w, every (element count) Cs Ss -> invs Cs Ss cs ->
  post (stops (tsem Cs Ss)) (a_zip sh Cs ps t d (cs, w))
    (fun q => inv _ (tsem Cs Ss) (fst q) /\ invs Cs Ss (fst (snd q)) /\ engaged Cs (fst (snd q)) = engaged Cs cs /\
       (count (snd (snd q)) + oowns Cs Ss cs = count w + oown _ (tsem Cs Ss) (fst q) + oowns Cs Ss (fst (snd q)))%Z /\
       oval _ (tsem Cs Ss) (fst q) = sequence count sh Cs Ss (ovals count sh Cs Ss cs) /\
       match sequence count sh Cs Ss (ovals count sh Cs Ss cs) with
       | Some vs => exists vs', lefts count sh Cs Ss ps vs vs' /\
                    sequence count sh Cs Ss (ovals count sh Cs Ss (fst (snd q))) = Some vs'
       | None => fst (snd q) = cs /\ snd (snd q) = w
       end)
    (fun q => invs Cs Ss (fst (snd q)) /\ engaged Cs (fst (snd q)) = engaged Cs cs /\
       (count (snd (snd q)) + oowns Cs Ss cs = count w + oowns Cs Ss (fst (snd q)))%Z).
Proof.
  intros Cs Ss ps t d cs w H Hi. destruct (tuple_element count sh Cs Ss H) as (K1 & K2 & K3).
  eapply post_imp; [apply (zip_with_ok _ _ K1 K3 Cs Ss _ _ t d cs w H Hi (tuple_from_ok Cs Ss ps H))|tauto| |auto].
  intros [d' [cs' w']]; cbn [fst snd]. intros (A1 & A2 & A3 & A4 & A5). repeat (split; [assumption|]).
  destruct (sequence count sh Cs Ss (ovals count sh Cs Ss cs)) as [vs|].
  - destruct A5 as (v & vs' & B1 & [-> B2] & B3). split; [exact B1|]. eauto.
  - destruct A5 as (B1 & B2 & B3). auto.
Qed.

(** * Laws of the specification *)
Lemma sequence_distribute : forall Cs (Ss : sems Cs) o, Cs <> [] ->
  sequence count sh Cs Ss (distribute count sh Cs Ss o) = o.
Proof.
  induction Cs as [|C Cs IH]; intros Ss o H; [congruence|]. cbn. destruct Cs as [|C' Cs].
  - destruct o as [[v []]|]; reflexivity.
  - rewrite IH by discriminate. destruct o as [[v vs]|]; reflexivity.
Qed.
Lemma distribute_sequence : forall Cs (Ss : sems Cs) os vs, sequence count sh Cs Ss os = Some vs ->
  distribute count sh Cs Ss (Some vs) = os.
Proof.
  induction Cs as [|C Cs IH]; intros Ss os vs H.
  - now destruct os.
  - destruct os as [o os]. change (match o, sequence count sh Cs (snd Ss) os with
                                   | Some v, Some vs => Some (v, vs)
                                   | _, _ => None
                                   end = Some vs) in H.
    destruct o as [v|]; [|discriminate H].
    destruct (sequence count sh Cs (snd Ss) os) as [u|] eqn:E; [|discriminate H].
    injection H as <-. apply pair_eq; [reflexivity|exact (IH _ _ _ E)].
Qed.

(** * unzip *)
Record lens {Z' R} (okR : R -> Prop) (valid : Z' -> Prop) (get : Z' -> R) (set : Z' -> R -> Z')
  (acc : access (W := W) (Z := Z') R) : Prop := {
  n_ok : forall z, valid z -> okR (get z);
  n_valid : forall z r, valid z -> okR r -> valid (set z r);
  n_get : forall z r, get (set z r) = r;
  n_same : forall z, valid z -> set z (get z) = z;
  n_set : forall z r r', set (set z r) r' = set z r';
  n_acc : forall A f (a : A) z w, valid z -> acc A f a (z, w) =
    match f a (get z, w) with
    | Ret (a', (r, w')) => Ret (a', (set z r, w'))
    | Exn (a', (r, w')) => Exn (a', (set z r, w'))
    | Abort => Abort
    | Undef => Undef
    end
}.

Lemma acc_post : forall Z' R okR valid get set (acc : access R) (L : @lens Z' R okR valid get set acc)
  A f (a : A) z w (P : Prop) (Q E : A * (Z' * W) -> Prop), valid z ->
  post P (f a (get z, w)) (fun q => Q (fst q, (set z (fst (snd q)), snd (snd q))))
                          (fun q => E (fst q, (set z (fst (snd q)), snd (snd q)))) ->
  post P (acc A f a (z, w)) Q E.
Proof.
  intros Z' R okR valid get set acc L A f a z w P Q E Hv H. rewrite (n_acc _ _ _ _ _ L) by exact Hv.
  destruct (f a (get z, w)) as [(a' & r & w')|(a' & r & w')| |]; auto.
Qed.

Lemma get_lens : forall (C : cls W) (S : sem C), lawful C S ->
  lens (ok S) (fun c => inv C S c /\ c_alive c = true) (fun c => c_raw c) (fun c r => mkcell r (c_flag c) true)
    (fun A f => with_get C f).
Proof.
  intros C S L. constructor; auto.
  - intros z [Hi Ha]. now apply Hi.
  - intros z r [Hi Ha] Hr. split; [now apply inv_set|reflexivity].
  - intros z [_ Ha]. now apply eta_alive.
  - intros A f a z w [Hi Ha]. now apply (with_get_alive C S L).
Qed.

Lemma tail_lens : forall Z' A B okA okB valid get set (acc : access (A * B)),
  @lens Z' (A * B) (fun r => okA (fst r) /\ okB (snd r)) valid get set acc ->
  lens okB valid (fun z => snd (get z)) (fun z r => set z (fst (get z), r)) (fun A' f => acc A' (use_snd f)).
Proof.
  intros Z' A B okA okB valid get set acc L. constructor.
  - intros z Hv. now apply (n_ok _ _ _ _ _ L).
  - intros z r Hv Hr. apply (n_valid _ _ _ _ _ L); [exact Hv|]. split; [now apply (n_ok _ _ _ _ _ L)|exact Hr].
  - intros z r. now rewrite (n_get _ _ _ _ _ L).
  - intros z Hv. rewrite <- surjective_pairing. now apply (n_same _ _ _ _ _ L).
  - intros z r r'. now rewrite (n_get _ _ _ _ _ L), (n_set _ _ _ _ _ L).
  - intros A' f a z w Hv. rewrite (n_acc _ _ _ _ _ L) by exact Hv. unfold use_snd. cbn [fst snd].
    destruct (f a (snd (get z), w)) as [(a' & r & w')|(a' & r & w')| |]; reflexivity.
Qed.

Lemma split_from_ok : forall p Cs (Ss : sems Cs), every (element count) Cs Ss -> every (@quiet W) Cs Ss ->
  forall Z' valid get set (acc : access (raw (tuple_cls sh Cs))),
  @lens Z' _ (ok (tsem Cs Ss)) valid get set acc ->
  forall t z w, valid z ->
  post (stops (tsem Cs Ss)) (split_from sh Cs p acc t (z, w))
    (fun q => ok (tsem (opts Cs) (osems Cs Ss)) (fst q) /\
       val (tsem (opts Cs) (osems Cs Ss)) (fst q) = distribute count sh Cs Ss (Some (val (tsem Cs Ss) (get z))) /\
       exists r', fst (snd q) = set z r' /\ ok (tsem Cs Ss) r' /\
         lefts count sh Cs Ss (repeat p (length Cs)) (val (tsem Cs Ss) (get z)) (val (tsem Cs Ss) r') /\
         (count (snd (snd q)) + own (tsem Cs Ss) (get z) =
          count w + own (tsem (opts Cs) (osems Cs Ss)) (fst q) + own (tsem Cs Ss) r')%Z)
    (fun q => exists r', fst (snd q) = set z r' /\ ok (tsem Cs Ss) r' /\
         (count (snd (snd q)) + own (tsem Cs Ss) (get z) = count w + own (tsem Cs Ss) r')%Z).
Proof.
  intros p. induction Cs as [|C Cs IH]; intros Ss H Q Z' valid get set acc L t z w Hv.
  - cbn. split; [exact I|]. split; [reflexivity|]. exists (get z).
    split; [symmetry; now apply (n_same _ _ _ _ _ L)|]. split; [exact I|]. split; [exact I|lia].
  - destruct H as [(H1 & H2 & H3) H], Q as [Q1 Q2].
    destruct (tuple_element count sh Cs (snd Ss) H) as (K1 & K2 & K3).
    destruct (tuple_element count sh _ _ (options_elements count Cs (snd Ss) H Q2)) as (J1 & J2 & J3).
    cbn [split_from tuple_sem tuple_cls opts osems map ok val own stops cons_sem fst snd raw cons_cls] in *.
    unfold build2. destruct t as [c t]. pose proof (n_ok _ _ _ _ _ L z Hv) as [G1 G2].
    apply then_post, on_fst_post. cbn [fst snd]. apply (acc_post _ _ _ _ _ _ _ L _ _ _ _ _ _ _ _ Hv), use_fst_post. cbn [fst snd].
    eapply post_imp; [apply (build_ok C (fst Ss) H1 _ (from_value C p) c (fst (get z), w) (stops (fst Ss))
      (fun x sw => val (fst Ss) x = val (fst Ss) (fst (get z)) /\ ok (fst Ss) (fst sw) /\
         left_by (fst Ss) p (val (fst Ss) (fst (get z))) (val (fst Ss) (fst sw)) /\
         (count (snd sw) + own (fst Ss) (fst (get z)) = count w + own (fst Ss) x + own (fst Ss) (fst sw))%Z)
      (fun sw => ok (fst Ss) (fst sw) /\ (count (snd sw) + own (fst Ss) (fst (get z)) = count w + own (fst Ss) (fst sw))%Z))|tauto| |].
    + tauto.
    + eapply post_imp; [exact (from_value_produces C (fst Ss) H1 p (c_raw c) (fst (get z)) w G1)|tauto| |].
      * intros [x [y w1]]; cbn [fst snd]. intros (A1 & A2 & [A3 A3'] & A4). rewrite !H3 in *. left. auto 6.
      * intros [x [y w1]]; cbn [fst snd]. rewrite !H3. auto.
    + intros [c1 [a1 w1]]; cbn [fst snd]. intros (B1 & B2 & B3 & B4 & B5 & B6).
      assert (Hv1 : valid (set z (a1, snd (get z)))) by (apply (n_valid _ _ _ _ _ L); [exact Hv|split; assumption]).
      apply undo_post, on_snd_post. cbn [fst snd].
      pose proof (IH (snd Ss) H Q2 _ _ _ _ _ (tail_lens _ _ _ _ _ _ _ _ _ L) t _ w1 Hv1) as Ht.
      cbv beta in Ht. rewrite (n_get _ _ _ _ _ L) in Ht. cbn [fst snd] in Ht.
      eapply post_imp; [exact Ht|tauto| |].
      * intros [t1 [z2 w2]]; cbn [fst snd]. intros (T1 & T2 & r' & -> & T3 & T4 & T5).
        rewrite (n_set _ _ _ _ _ L).
        split; [split; [exact B1|exact T1]|]. split.
        { cbn [distribute option_map]. apply pair_eq; [|exact T2].
          change (oval C (fst Ss) c1 = Some (val (fst Ss) (fst (get z)))). unfold oval. now rewrite B2, B3. }
        exists (a1, r'). cbn [fst snd lefts repeat length hd tl]. split; [reflexivity|]. split; [split; assumption|].
        split; [split; assumption|].
        change (own (opt_sem C (fst Ss)) c1) with (oown C (fst Ss) c1). unfold oown. rewrite B2. change (map opt_cls Cs) with (opts Cs). lia.
      * intros [t1 [z2 w2]]; cbn [fst snd]. intros (r' & -> & T3 & T5). rewrite (n_set _ _ _ _ _ L).
        apply on_fst_post, lift_post. cbn [fst snd].
        eapply post_imp; [apply (dtor_ok C (fst Ss) H1 c1 w2 B1)|tauto| |intros q []].
        intros [c2 w3]; cbn [fst snd]. intros [_ D1]. exists (a1, r'). cbn [fst snd]. split; [reflexivity|]. split; [split; assumption|].
        unfold oown in D1. rewrite B2 in D1. rewrite !H3 in D1. lia.
    + intros [c1 [a1 w1]]; cbn [fst snd]. intros (B1 & B2). exists (a1, snd (get z)). cbn [fst snd].
      split; [reflexivity|]. split; [split; assumption|]. lia.
Qed.

Lemma split_none_ok : forall Cs (Ss : sems Cs), every (element count) Cs Ss -> forall t w,
  exists t', split_none sh Cs t w = Ret (t', w) /\ ok (tsem (opts Cs) (osems Cs Ss)) t' /\
    val (tsem (opts Cs) (osems Cs Ss)) t' = distribute count sh Cs Ss None /\ own (tsem (opts Cs) (osems Cs Ss)) t' = 0%Z.
Proof.
  induction Cs as [|C Cs IH]; intros Ss H t w; cbn.
  - exists t. auto.
  - destruct H as [(H1 & H2 & H3) H]. unfold build2, then_, or_undo, on_fst, on_snd. destruct t as [c t]. cbn [fst snd].
    destruct (none_ok C (fst Ss) H1 _ c w) as (c' & -> & N1 & N2). cbn [fst snd].
    destruct (IH (snd Ss) H t w) as (t' & E & T1 & T2 & T3).
    exists (c', t'). unfold opts in E. rewrite E. split; [reflexivity|]. cbn [fst snd]. split; [split; assumption|].
    split; [apply pair_eq; [|exact T2]; unfold oval; now rewrite N2|]. unfold oown. rewrite N2. unfold opts in T3. rewrite T3. reflexivity.
Qed.

Lemma moved_ok : forall D (T : sem D), lawful D T -> (forall w, cnt T w = count w) ->
  forall X (mk : raw D -> X * W -> out (raw D * (X * W))) t r xw (B : Prop) (R : V T -> Z -> X -> W -> Prop) (E : X -> W -> Prop),
  (stops T -> B) ->
  post B (mk t xw) (fun p => ok T (fst p) /\ R (val T (fst p)) (own T (fst p)) (fst (snd p)) (snd (snd p)))
                   (fun p => E (fst (snd p)) (snd (snd p))) ->
  (forall v o x w v' o' w', R v o x w -> (count w' + o = count w + o')%Z -> v' = v -> R v' o' x w') ->
  (forall v o x w w', R v o x w -> (count w' + o = count w)%Z -> E x w') ->
  post B (moved_temporary D mk t r xw)
    (fun p => ok T (fst p) /\ R (val T (fst p)) (own T (fst p)) (fst (snd p)) (snd (snd p)))
    (fun p => E (fst (snd p)) (snd (snd p))).
Proof.
  intros D T LD Dcnt X mk t r xw B R E HB Hm HR HE. unfold moved_temporary.
  destruct (mk t xw) as [(t' & x & w)|(t' & x & w)| |]; cbn [post fst snd] in *; auto.
  destruct Hm as [Ht Hr]. pose proof (l_mctor _ _ LD t' r w Ht) as Hmc.
  destruct (mctor D r (t', w)) as [(r' & t'' & w')|(r' & t'' & w')| |]; cbn [post fst snd] in *; auto.
  - destruct Hmc as (B1 & B2 & B3 & B4 & B5). pose proof (l_dtor _ _ LD t'' w' B3) as Hd.
    destruct (dtor D t'' w') as [[t3 w3]|[t3 w3]| |]; cbn [nothrow post fst snd] in *; auto.
    split; [exact B1|]. eapply HR; [exact Hr| |exact B2]. rewrite !Dcnt in *. lia.
  - destruct Hmc as (B1 & B2). pose proof (l_dtor _ _ LD t'' w' B1) as Hd.
    destruct (dtor D t'' w') as [[t3 w3]|[t3 w3]| |]; cbn [nothrow post fst snd] in *; auto.
    eapply HE; [exact Hr|]. rewrite !Dcnt in *. lia.
Qed.

Lemma ostops : forall Cs (Ss : sems Cs), stops (tsem (opts Cs) (osems Cs Ss)) -> stops (tsem Cs Ss).
Proof. induction Cs as [|C Cs IH]; intros Ss; cbn; [auto|]. intros [H|H]; [left; exact H|right; now apply IH]. Qed.

Theorem unzip_ok : forall elide Cs (Ss : sems Cs) p t r c w, every (element count) Cs Ss -> every (@quiet W) Cs Ss ->
  inv _ (tsem Cs Ss) c ->
  post (stops (tsem Cs Ss)) (a_unzip elide sh Cs p t r (c, w))
    (fun q => ok (tsem (opts Cs) (osems Cs Ss)) (fst q) /\
       val (tsem (opts Cs) (osems Cs Ss)) (fst q) = distribute count sh Cs Ss (oval _ (tsem Cs Ss) c) /\
       inv _ (tsem Cs Ss) (fst (snd q)) /\
       opt_rel (lefts count sh Cs Ss (repeat p (length Cs))) (oval _ (tsem Cs Ss) c) (oval _ (tsem Cs Ss) (fst (snd q))) /\
       (count (snd (snd q)) + oown _ (tsem Cs Ss) c =
        count w + own (tsem (opts Cs) (osems Cs Ss)) (fst q) + oown _ (tsem Cs Ss) (fst (snd q)))%Z)
    (fun q => inv _ (tsem Cs Ss) (fst (snd q)) /\ c_alive (fst (snd q)) = c_alive c /\
       (count (snd (snd q)) + oown _ (tsem Cs Ss) c = count w + oown _ (tsem Cs Ss) (fst (snd q)))%Z).
Proof.
  intros elide Cs Ss p t r c w H Q Hi.
  destruct (tuple_element count sh Cs Ss H) as (K1 & K2 & K3).
  destruct (tuple_element count sh _ _ (options_elements count Cs Ss H Q)) as (J1 & J2 & J3).
  unfold a_unzip. cbn [fst]. rewrite (has_ok _ _ K1 c Hi). cbn [check].
  assert (Hmk : forall m : raw (tuple_cls sh (opts Cs)) -> cell (tuple_cls sh Cs) * W ->
                      out (raw (tuple_cls sh (opts Cs)) * (cell (tuple_cls sh Cs) * W)),
    (forall t0, post (stops (tsem Cs Ss)) (m t0 (c, w))
      (fun q => ok (tsem (opts Cs) (osems Cs Ss)) (fst q) /\
         val (tsem (opts Cs) (osems Cs Ss)) (fst q) = distribute count sh Cs Ss (oval _ (tsem Cs Ss) c) /\
         inv _ (tsem Cs Ss) (fst (snd q)) /\
         opt_rel (lefts count sh Cs Ss (repeat p (length Cs))) (oval _ (tsem Cs Ss) c) (oval _ (tsem Cs Ss) (fst (snd q))) /\
         (count (snd (snd q)) + oown _ (tsem Cs Ss) c =
          count w + own (tsem (opts Cs) (osems Cs Ss)) (fst q) + oown _ (tsem Cs Ss) (fst (snd q)))%Z)
      (fun q => inv _ (tsem Cs Ss) (fst (snd q)) /\ c_alive (fst (snd q)) = c_alive c /\
         (count (snd (snd q)) + oown _ (tsem Cs Ss) c = count w + oown _ (tsem Cs Ss) (fst (snd q)))%Z)) ->
    post (stops (tsem Cs Ss)) (if elide then m r (c, w) else moved_temporary (tuple_cls sh (opts Cs)) m t r (c, w))
      (fun q => ok (tsem (opts Cs) (osems Cs Ss)) (fst q) /\
         val (tsem (opts Cs) (osems Cs Ss)) (fst q) = distribute count sh Cs Ss (oval _ (tsem Cs Ss) c) /\
         inv _ (tsem Cs Ss) (fst (snd q)) /\
         opt_rel (lefts count sh Cs Ss (repeat p (length Cs))) (oval _ (tsem Cs Ss) c) (oval _ (tsem Cs Ss) (fst (snd q))) /\
         (count (snd (snd q)) + oown _ (tsem Cs Ss) c =
          count w + own (tsem (opts Cs) (osems Cs Ss)) (fst q) + oown _ (tsem Cs Ss) (fst (snd q)))%Z)
      (fun q => inv _ (tsem Cs Ss) (fst (snd q)) /\ c_alive (fst (snd q)) = c_alive c /\
         (count (snd (snd q)) + oown _ (tsem Cs Ss) c = count w + oown _ (tsem Cs Ss) (fst (snd q)))%Z)).
  { intros m Hm. destruct elide; [apply Hm|].
    eapply post_imp; [apply (moved_ok _ _ J1 J3) with (B := stops (tsem Cs Ss))
      (R := fun v o c' w' => v = distribute count sh Cs Ss (oval _ (tsem Cs Ss) c) /\
         inv _ (tsem Cs Ss) c' /\
         opt_rel (lefts count sh Cs Ss (repeat p (length Cs))) (oval _ (tsem Cs Ss) c) (oval _ (tsem Cs Ss) c') /\
         (count w' + oown _ (tsem Cs Ss) c = count w + o + oown _ (tsem Cs Ss) c')%Z)
      (E := fun c' w' => inv _ (tsem Cs Ss) c' /\ c_alive c' = c_alive c /\
         (count w' + oown _ (tsem Cs Ss) c = count w + oown _ (tsem Cs Ss) c')%Z)|auto| |].
    - apply ostops.
    - apply Hm.
    - intros v o x w1 v' o' w' (A1 & A2 & A3 & A4) Ho ->. repeat (split; [assumption|]). lia.
    - intros v o x w1 w' (A1 & A2 & A3 & A4) Ho. split; [exact A2|]. split; [|lia].
      eapply rel_alive; exact A3.
    - intros q (A1 & A2 & A3 & A4 & A5). auto.
    - auto. }
  destruct (c_alive c) eqn:Ha; cbv beta zeta.
  - apply Hmk. intros t0.
    eapply post_imp; [apply (split_from_ok p Cs Ss H Q _ _ _ _ _ (get_lens _ _ K1) t0 c w (conj Hi Ha))|auto| |].
    + intros [t1 [c1 w1]]; cbn [fst snd]. intros (A1 & A2 & r' & -> & A3 & A4 & A5).
      split; [exact A1|]. unfold oval, oown. rewrite Ha. cbn [c_alive c_raw]. split; [exact A2|].
      split; [now apply inv_set|]. split; [exact A4|exact A5].
    + intros [t1 [c1 w1]]; cbn [fst snd]. intros (r' & -> & A3 & A5). unfold oown. rewrite Ha. cbn [c_alive c_raw].
      split; [now apply inv_set|]. auto.
  - apply Hmk. intros t0. unfold lift. destruct (split_none_ok Cs Ss H t0 w) as (t1 & E & A1 & A2 & A3).
    cbn [fst snd]. rewrite E. cbn [post fst snd]. unfold oval, oown. rewrite Ha. rewrite A3.
    split; [exact A1|]. split; [exact A2|]. split; [exact Hi|]. split; [exact I|lia].
Qed.
End Zip.
