(** Proofs about the declarations of templates of the standard library. *)
From Coq Require Import Arith Bool List String Lia.
From Verif Require Import StdFwd StdFwdSpec.
Import ListNotations.
Open Scope string_scope.
Open Scope list_scope.

Lemma home_searched l n : searched l (home l n).
Proof.
  assert (S : searched l ["std"]) by constructor.
  destruct l as [abi|v c d| |]; cbn; try exact S.
  - apply (searched_inline _ ["std"] abi S). constructor.
  - destruct (d && String.eqb n "vector") eqn:E.
    { apply andb_true_iff in E. destruct E as [-> _]. apply (searched_inline _ ["std"] "__debug" S). constructor. }
    destruct v as [v|].
    + assert (V : searched (LibStdCpp (Some v) c d) ["std"; v]) by (apply (searched_inline _ ["std"] v S); constructor).
      destruct c; cbn; [|exact V]. destruct (String.eqb n "basic_string"); [|exact V].
      apply (searched_inline _ ["std"; v] "__cxx11" V). constructor.
    + destruct c; cbn; [|exact S]. destruct (String.eqb n "basic_string"); [|exact S].
      apply (searched_inline _ ["std"] "__cxx11" S). constructor.
Qed.

(** The declarations of an ordinary library are its own, each once. *)
Theorem declares l x : ordinary l ->
  parse [] (block l true x) = Some (map (fun n => (home l n, n)) (wanted l x)).
Proof.
  destruct l as [abi|[v|] c d| |]; cbn [ordinary]; intros H; [|destruct H as [-> ->]|destruct H as [-> ->]| |]; destruct x; reflexivity.
Qed.
Theorem own l x ds : ordinary l -> parse [] (block l true x) = Some ds -> forall p n, In (p, n) ds -> p = home l n.
Proof.
  intros O. rewrite (declares l x O). intros [= <-] p n I. change (In (p, n) (map (fun n => (home l n, n)) (wanted l x))) in I.
  apply in_map_iff in I. destruct I as (m & [= <- <-] & _). reflexivity.
Qed.
Theorem one_meaning l f x : ordinary l \/ f = false ->
  exists ds, parse [] (block l f x) = Some ds /\ forall n, unambiguous l ds n.
Proof.
  intros H. destruct f.
  - destruct H as [O|[=]]. exists (map (fun n => (home l n, n)) (wanted l x)).
    pose proof (declares l x O) as D. split; [exact D|]. intros n. exists (home l n). split.
    + split; [apply home_searched|now left].
    + intros q [_ [->|I]]; [reflexivity|]. exact (own l x _ O D q n I).
  - exists []. split; [reflexivity|]. intros n. exists (home l n). split; [split; [apply home_searched|now left]|].
    intros q [_ [->|[]]]. reflexivity.
Qed.
Theorem old_strings v d x : parse [] (block (LibStdCpp v false d) true x) = None.
Proof. destruct v; destruct x; reflexivity. Qed.
Lemma debug_vector v x : exists ds, parse [] (block (LibStdCpp v true true) true x) = Some ds /\
  In ("std" :: match v with Some v => [v] | None => [] end, "vector") ds.
Proof. destruct v, x; eexists; (split; [reflexivity|]); cbn; right; right; left; reflexivity. Qed.
Theorem debug_ambiguous v x ds : v <> Some "__debug" -> parse [] (block (LibStdCpp v true true) true x) = Some ds ->
  ~ unambiguous (LibStdCpp v true true) ds "vector".
Proof.
  intros V P (p & _ & U). destruct (debug_vector v x) as (ds' & P' & I). rewrite P in P'. injection P' as <-.
  assert (A : ["std"; "__debug"] = p).
  { apply U. split; [|now left]. exact (home_searched (LibStdCpp v true true) "vector"). }
  assert (B : "std" :: match v with Some v => [v] | None => [] end = p).
  { apply U. split; [|now right]. pose proof (home_searched (LibStdCpp v true true) "array") as S. cbn in S. destruct v; exact S. }
  rewrite <- A in B. destruct v as [v|]; [|discriminate]. injection B as ->. now apply V.
Qed.
(** Exactly these. *)
Theorem ordinary_exact l x : (forall v c, l <> LibStdCpp (Some "__debug") v c) ->
  ((exists ds, parse [] (block l true x) = Some ds /\ forall n, unambiguous l ds n) <-> ordinary l).
Proof.
  intros N. split.
  - intros (ds & P & U). destruct l as [abi|v c d| |]; try exact I. destruct c; [|now rewrite old_strings in P].
    destruct d; [|now split]. destruct (debug_ambiguous v x ds); [|exact P|apply U]. intros ->. now apply (N true true).
  - intros O. apply one_meaning. now left.
Qed.

(** The parser. *)
Lemma sequence_parse p ts ds : sequence p ts ds -> forall inside rest, rev inside = p ->
  parse inside (ts ++ rest) = option_map (app ds) (parse inside rest).
Proof.
  induction 1 as [p|p n r ds H IH|p i n a b r ds es I A H1 IH1 H2 IH2]; intros inside rest E.
  - cbn [app]. now destruct (parse inside rest).
  - cbn [app parse]. rewrite (IH inside rest E), E. now destruct (parse inside rest).
  - assert (X : parse inside ((i ++ [Namespace; Name n] ++ a ++ [Open] ++ b ++ [Close] ++ r) ++ rest) = parse (n :: inside) (b ++ Close :: r ++ rest)).
    { replace ((i ++ [Namespace; Name n] ++ a ++ [Open] ++ b ++ [Close] ++ r) ++ rest)
        with (i ++ [Namespace; Name n] ++ a ++ [Open] ++ b ++ Close :: r ++ rest) by (rewrite <- !app_assoc; reflexivity).
      destruct I as [->| ->], A as [->| ->]; reflexivity. }
    rewrite X, (IH1 (n :: inside)) by (cbn; now rewrite E). cbn [parse]. rewrite (IH2 inside rest E).
    destruct (parse inside rest); [|reflexivity]. cbn. now rewrite app_assoc.
Qed.
Lemma parse_sequence k : forall ts, (List.length ts <= k)%nat -> forall inside ds, parse inside ts = Some ds ->
  match inside with
  | [] => sequence [] ts ds
  | _ :: up => exists b r es fs, ts = b ++ Close :: r /\ sequence (rev inside) b es /\ parse up r = Some fs /\ ds = es ++ fs
  end.
Proof.
  induction k as [|k IH]; intros ts L inside ds P.
  - destruct ts; [|cbn in L; lia]. cbn in P. destruct inside; [|discriminate]. injection P as <-. constructor.
  - assert (NS : forall i n a r, i = [] \/ i = [Inline] -> a = [] \/ a = [Attribute] -> ts = i ++ [Namespace; Name n] ++ a ++ [Open] ++ r ->
      parse (n :: inside) r = Some ds ->
      match inside with
      | [] => sequence [] ts ds
      | _ :: up => exists b r es fs, ts = b ++ Close :: r /\ sequence (rev inside) b es /\ parse up r = Some fs /\ ds = es ++ fs
      end).
    { intros i n a r I A -> Q. assert (Lr : (List.length r <= k)%nat) by (rewrite !app_length in L; cbn in L; lia).
      destruct (IH r Lr (n :: inside) ds Q) as (b & t & es & fs & -> & S & T & ->). cbn [rev] in S.
      assert (Lt : (List.length t <= k)%nat) by (rewrite app_length in Lr; cbn in Lr; lia).
      pose proof (IH t Lt inside fs T) as J. destruct inside as [|o up].
      - exact (sequence_namespace [] i n a b t es fs I A S J).
      - destruct J as (b' & t' & es' & fs' & -> & S' & T' & ->).
        exists (i ++ [Namespace; Name n] ++ a ++ [Open] ++ b ++ [Close] ++ b'), t', (es ++ es'), fs'.
        split; [rewrite <- !app_assoc; reflexivity|]. split; [now apply sequence_namespace|]. split; [exact T'|now rewrite app_assoc]. }
    destruct ts as [|t ts]; [apply (IH [] (Nat.le_0_l k) inside ds P)|].
    destruct t as [| |s| | | |m]; try discriminate P.
    + destruct ts as [|[| |s| | | |m] ts]; try discriminate P. destruct ts as [|[| |s| | | |m] ts]; try discriminate P.
      destruct ts as [|[| |s'| | | |m] ts]; try discriminate P.
      * destruct ts as [|[| |s'| | | |m] ts]; try discriminate P. apply (NS [Inline] s [Attribute] ts); auto.
      * apply (NS [Inline] s [] ts); auto.
    + destruct ts as [|[| |s| | | |m] ts]; try discriminate P. destruct ts as [|[| |s'| | | |m] ts]; try discriminate P.
      * destruct ts as [|[| |s'| | | |m] ts]; try discriminate P. apply (NS [] s [Attribute] ts); auto.
      * apply (NS [] s [] ts); auto.
    + cbn [parse] in P. destruct inside as [|o up]; [discriminate|]. exists [], ts, [], ds. repeat split; [constructor|exact P].
    + cbn [parse] in P. destruct (parse inside ts) as [es|] eqn:Q; [|discriminate]. injection P as <-.
      assert (Lt : (List.length ts <= k)%nat) by (cbn in L; lia). pose proof (IH ts Lt inside es Q) as J. destruct inside as [|o up].
      * now constructor.
      * destruct J as (b & r & fs & gs & -> & S & T & ->). exists (Declare m :: b), r, ((rev (o :: up), m) :: fs), gs.
        repeat split; [now constructor|exact T].
Qed.
Theorem parse_exact ts ds : parse [] ts = Some ds <-> sequence [] ts ds.
Proof.
  split.
  - intros P. exact (parse_sequence (List.length ts) ts (le_n _) [] ds P).
  - intros S. pose proof (sequence_parse [] ts ds S [] [] eq_refl) as P. rewrite app_nil_r in P. rewrite P. cbn. now rewrite app_nil_r.
Qed.
