(** Properties of base::construct compiled as C++17.  Statements only: each theorem is closed by
    [exact], with its assumptions printed, and examples that meet the hypotheses. *)
From Coq Require Import NArith ZArith Bool List Lia.
From Verif Require Import Outcome Words Lifetime LifetimeSpec LifetimeFacts History HistorySpec HistoryFacts
  Log LogFacts Classes ClassesFacts LifetimeLemmas ConstructAt ConstructAtFacts.
Import ListNotations.
Open Scope N_scope.

(** C55.  [at17 C tmp] is the class T as the C++17 code makes it: through a temporary whose storage
    held [tmp], if T is trivially move assignable.  If then T is trivially destructible, or if T is not
    trivially move assignable, every program does what C18 says; the harmless temporary even makes
    the condition on throwing constructors ([gentle]) unnecessary. *)
Theorem C55_programs : forall W (C : cls W) (S : sem C) (tmp : raw C), lawful C S ->
  (tma C = true -> td C = true) -> forall os n w,
  Forall (fair C S) os -> (tma C = false -> Forall (gentle C S) os) ->
  match run (at17 C tmp) (sem17 C tmp S) (map (call17 C tmp S) os) (repeat None n) w with
  | HDone ks l w' => healthy (at17 C tmp) (sem17 C tmp S) l /\
      runs C S os ks (repeat None n) (values (at17 C tmp) (sem17 C tmp S) l) /\
      (cnt S w' - owned (at17 C tmp) (sem17 C tmp S) l = cnt S w)%Z
  | HAbort ks => stops S \/
      exists os1 o os2 a, os = os1 ++ o :: os2 /\ runs C S os1 ks (repeat None n) a /\ misuse C S o a
  | HUndef => False
  | HBad => True
  end.
Proof. exact @programs17. Qed.
Print Assumptions C55_programs.

(** The class keeps its contract, so everything proved for classes (C17 to C23, C52, C53) applies. *)
Theorem C55_class : forall W (C : cls W) (S : sem C) (tmp : raw C), lawful C S ->
  (tma C = true -> td C = true) -> lawful (at17 C tmp) (sem17 C tmp S).
Proof. exact @at17_lawful. Qed.
Print Assumptions C55_class.

(** A constructor of a trivially assignable and destructible T that throws leaves the storage alone,
    whatever it did to its own object. *)
Theorem C55_throwing_constructor : forall W (C : cls W) (S : sem C) (tmp : raw C),
  tma C = true -> td C = true ->
  (forall i, quiet_init (at17 C tmp) (true, i)) /\ quiet_copy (at17 C tmp) (sem17 C tmp S) /\
  quiet_move (at17 C tmp) (sem17 C tmp S).
Proof. exact @at17_quiet_tma. Qed.
Print Assumptions C55_throwing_constructor.

(** Options of options at any depth. *)
Theorem C55_any_depth : forall W n fl (C : cls W) (tmp : raw C) (S : sem C),
  lawful C S -> steady C S -> (tma C = true -> td C = true) ->
  lawful (projT1 (nest17 n fl C tmp S)) (snd (projT2 (nest17 n fl C tmp S))) /\
  steady (projT1 (nest17 n fl C tmp S)) (snd (projT2 (nest17 n fl C tmp S))).
Proof. exact nest17_lawful. Qed.
Print Assumptions C55_any_depth.

(** An option is trivially assignable only if it is trivially destructible. *)
Theorem C55_options_harmless : forall W (C : cls W), tma (opt_cls C) = true -> td (opt_cls C) = true.
Proof. exact option_harmless. Qed.
Print Assumptions C55_options_harmless.

(** A trivially assignable T that is not trivially destructible: whenever construct returns, the
    option holds an object whose destructor has already run; it is destroyed a second time by
    reset() or by the destructor of the option. *)
Theorem C55_destroyed_twice : forall W (C : cls W) (S : sem C) (tmp : raw C), lawful C S ->
  tma C = true -> td C = false -> ~ stops S ->
  forall i c w c' w', inv C S c -> c_alive c = false ->
  o_construct (at17 C tmp) (ctor (at17 C tmp) (true, i)) (cell17 C tmp c) w = Ret (c', w') ->
  c_alive c' = true /\ ok S (c_raw c') /\ cnt S w' = cnt S w /\
  (forall c2 w2, o_dtor (at17 C tmp) c' w' = Ret (c2, w2) \/ o_reset (at17 C tmp) c' w' = Ret (c2, w2) ->
     cnt S w2 = (cnt S w - own S (c_raw c'))%Z).
Proof. exact @construct17_dead. Qed.
Print Assumptions C55_destroyed_twice.

(** Which calls make such an object: a converting constructor, an assignment and (try_)emplace of a variable
    without value.  It is in the option, but no longer counted as an instance. *)
Theorem C55_calls : forall W (C : cls W) (S : sem C) (tmp : raw C), lawful C S ->
  tma C = true -> td C = false -> ~ stops S ->
  forall (o : call C S) l x w l' w', by_construct o x ->
  (forall c, slot l x = Some c -> inv C S c /\ c_alive c = false) ->
  step (at17 C tmp) (sem17 C tmp S) (call17 C tmp S o) (map (option_map (cell17 C tmp)) l) w = SRet l' w' ->
  exists c, slot l' x = Some c /\ c_alive c = true /\ ok S (c_raw c) /\ cnt S w' = cnt S w.
Proof. intros W C S tmp. exact (calls17_dead C S tmp). Qed.
Print Assumptions C55_calls.

(** Programs that make contained objects only by the constructors from a value or arguments do in C++17
    exactly what they do in C++20, for every class. *)
Theorem C55_in_place : forall W (C : cls W) (S : sem C) (tmp : raw C) os l w, Forall in_place os ->
  run (at17 C tmp) (sem17 C tmp S) (map (call17 C tmp S) os) (map (option_map (cell17 C tmp)) l) w =
  match run C S os l w with
  | HDone ks l' w' => HDone ks (map (option_map (cell17 C tmp)) l') w'
  | HAbort ks => HAbort ks
  | HUndef => HUndef
  | HBad => HBad
  end.
Proof. intros W C S tmp os l w. exact (in_place_run17 C S tmp os l w). Qed.
Print Assumptions C55_in_place.

Example C55_ex_in_place : let g := mkcell (C := counted) 0 0 false in
  let os := [New 0 (IVal (7 : init counted)) g; New 1 INone g; Reset 0; Destroy 0] : list (call counted counted_sem) in
  Forall in_place os /\
  match run counted counted_sem os [None; None] 0%Z with HDone ks _ w => ks = [false; false; false; false] /\ w = 0%Z | _ => False end.
Proof. split; [repeat constructor|vm_compute; split; reflexivity]. Qed.

Example C55_ex_calls : by_construct (Assign 0 (IVal (7 : init counted)) : call counted counted_sem) 0 /\
  match step (at17 counted (0 : raw counted)) (sem17 counted (0 : raw counted) counted_sem)
    (call17 counted (0 : raw counted) counted_sem (Assign 0 (IVal (7 : init counted))))
    (map (option_map (cell17 counted (0 : raw counted))) [Some (mkcell (C := counted) 0 0 false)]) 0%Z with
  | SRet _ w => w = 0%Z
  | _ => False
  end.
Proof. split; reflexivity. Qed.

(** So C17 (as many destructions as constructions) is false in C++17 for a lawful class; in C++20 the
    same program ends with no instance left. *)
Theorem C55_balance_refuted : exists (os : list (call counted counted_sem)) n ks l ks' l' w',
  Forall (fair _ _) os /\ Forall (gentle _ _) os /\
  run counted counted_sem os (repeat None n) 0%Z = HDone ks l 0%Z /\
  run (at17 counted (0 : raw counted)) (sem17 counted (0 : raw counted) counted_sem)
    (map (call17 counted (0 : raw counted) counted_sem) os) (repeat None n) 0%Z = HDone ks' l' w' /\
  l' = [None] /\ w' = (-1)%Z.
Proof. exact counted_unbalanced. Qed.
Print Assumptions C55_balance_refuted.

(** The classes of the examples: [counted] counts its instances; [hasty] is trivially copyable and its
    constructor writes before it throws, which in C++20 leaves an empty option that looks engaged. *)
Example C55_ex_classes : lawful counted counted_sem /\ tma counted = true /\ td counted = false /\
  lawful hasty hasty_sem /\ tma hasty = true /\ td hasty = true /\ ~ quiet_init hasty (5 : init hasty) /\
  lawful (plain 1) (plain_sem 1) /\ steady (plain 1) (plain_sem 1).
Proof.
  split; [exact counted_lawful|]. split; [reflexivity|]. split; [reflexivity|].
  split; [exact hasty_lawful|]. split; [reflexivity|]. split; [reflexivity|]. split; [exact hasty_torn|].
  split; [apply plain_lawful|apply plain_steady].
Qed.

Example C55_ex_fair : Forall (fair hasty hasty_sem) hasty_prog.
Proof. repeat constructor. Qed.

Example C55_ex_run :
  (match run hasty hasty_sem hasty_prog [None] [true] with
   | HDone ks l _ => values hasty hasty_sem l = [Some None] /\
       option_map (o_has hasty) (slot l 0) = Some (Ok true)
   | _ => False
   end) /\
  match run (at17 hasty (9 : raw hasty)) (sem17 hasty (9 : raw hasty) hasty_sem)
    (map (call17 hasty (9 : raw hasty) hasty_sem) hasty_prog) [None] [true] with
  | HDone ks l _ => ks = [false; true; false] /\ values _ (sem17 hasty (9 : raw hasty) hasty_sem) l = [Some (Some 6)]
  | _ => False
  end.
Proof. exact hasty_run. Qed.

Example C55_ex_emplace : exists c',
  inv counted counted_sem (mkcell (C := counted) 0 0 false) /\
  o_construct (at17 counted (0 : raw counted)) (ctor (at17 counted (0 : raw counted)) (true, (7 : init counted)))
    (cell17 counted (0 : raw counted) (mkcell (C := counted) 0 0 false)) 0%Z = Ret (c', 0%Z) /\ c_alive c' = true.
Proof. eexists. split; [|split; [vm_compute; reflexivity|reflexivity]]. repeat split; cbn; intros; lia || discriminate || reflexivity. Qed.
