(** Symbolic runs of CMake programs.  A run is described by a trace: the changes in their order, with those of
    the branches of if() under the value of the condition.  The trace does not depend on the state the run
    starts with beyond the facts given by [base]; [sym_sound] says that every run is the one described. *)
From Coq Require Import Bool List Ascii String Lia.
From Verif Require Import CMakeLang CMakeRules.
Import ListNotations.
Open Scope string_scope.
Open Scope list_scope.

(** * Traces, the last change first *)

Inductive trace := TNil | TOp (o : op) (t : trace) | TWhen (b : bool) (l t : trace).
Fixpoint apply (t : trace) (st : state) : state :=
  match t with
  | TNil => st
  | TOp o t => act o (apply t st)
  | TWhen b l t => let s := apply t st in if b then apply l s else s
  end.
Fixpoint tapp (d t : trace) : trace :=
  match d with
  | TNil => t
  | TOp o d => TOp o (tapp d t)
  | TWhen b l d => TWhen b l (tapp d t)
  end.
Definition pushes (l : list op) (t : trace) : trace := fold_left (fun t o => TOp o t) l t.
Fixpoint told (t : trace) : list event :=
  match t with
  | TNil => []
  | TOp (OSay e) t => told t ++ [e]
  | TOp _ t => told t
  | TWhen b l t => told t ++ (if b then told l else [])
  end.

Lemma apply_tapp d t st : apply (tapp d t) st = apply d (apply t st).
Proof. induction d as [|o d IH|b l IHl d IH]; cbn; auto; now rewrite IH. Qed.
Lemma apply_pushes l t st : apply (pushes l t) st = acts l (apply t st).
Proof. revert t. induction l as [|o l IH]; intros t; auto. cbn. unfold pushes, acts in *. now rewrite IH. Qed.
Lemma pushes_tapp l t : pushes l t = tapp (pushes l TNil) t.
Proof.
  enough (H : forall t', pushes l (tapp t' t) = tapp (pushes l t') t) by apply (H TNil).
  induction l as [|o l IH]; intros t'; auto. cbn. apply (IH (TOp o t')).
Qed.
Lemma tapp_assoc a b c : tapp (tapp a b) c = tapp a (tapp b c).
Proof. induction a; cbn; congruence. Qed.
Lemma record_apply t st : record (apply t st) = record st ++ told t.
Proof.
  revert st. induction t as [|o t IH|b l IHl t IH]; intros st; cbn; [now rewrite app_nil_r| |].
  - destruct o; cbn; rewrite IH; auto. now rewrite app_assoc.
  - destruct b; [now rewrite IHl, IH, app_assoc|now rewrite IH, app_nil_r].
Qed.

(** * What is known *)

Record base := mkbase {
  b_vals : list (string * option value);  (* variables *)
  b_novar : list string;                  (* no variable of the scope *)
  b_nocache : list string;                (* no cache entry *)
  b_names : list string;                  (* no targets, nor made by packages *)
  b_gives : list (string * string);       (* a package and a target it makes *)
  b_dir : string; b_excl : bool; b_opts : value; b_links : value }.

Fixpoint assoc (l : list (string * option value)) (x : string) : option (option value) :=
  match l with [] => None | (y, v) :: l => if String.eqb x y then Some v else assoc l x end.
Definition gives (k : base) (p t : string) : bool :=
  existsb (fun e => String.eqb (fst e) p && String.eqb (snd e) t) (b_gives k).

Record fits (h : host) (k : base) (st : state) : Prop := {
  f_vals : forall x v, assoc (b_vals k) x = Some v -> lookup st x = v;
  f_novar : forall x, mem x (b_novar k) = true -> vars st x = None;
  f_nocache : forall x, mem x (b_nocache k) = true -> cache st x = None;
  f_names : forall t, mem t (b_names k) = true -> exists_target st t = false;
  f_provides : forall t p, mem t (b_names k) = true -> mem t (h_provides h p) = false;
  f_gives : forall p t, gives k p t = true -> mem t (h_provides h p) = true;
  f_dir : dir st = b_dir k; f_excl : excl st = b_excl k; f_opts : dopts st = b_opts k; f_links : dlink st = b_links k;
  f_up : up st = []; f_guarded : forall p, guarded st p = false }.

(** A variable: its value, whether it is known, whether it is not in the scope, not in the cache. *)
Record info := mkinfo { i_val : option value; i_known : bool; i_novar : bool; i_nocache : bool }.
Definition op_touches (o : op) (x : string) : bool :=
  match o with
  | OVar y _ | OCache y _ | ODefault y _ | OOnce y _ => String.eqb x y
  | _ => false
  end.
Fixpoint touches (t : trace) (x : string) : bool :=
  match t with
  | TNil => false
  | TOp o t => op_touches o x || touches t x
  | TWhen _ l t => touches l x || touches t x
  end.
Definition info_op (o : op) (x : string) (i : info) : info :=
  match o with
  | OVar y (Some v) => if String.eqb x y then mkinfo (Some v) true false (i_nocache i) else i
  | OVar y None => if String.eqb x y then mkinfo None (i_nocache i) true (i_nocache i) else i
  | OCache y v => if String.eqb x y then mkinfo (Some v) (i_novar i) (i_novar i) false else i
  | ODefault y v | OOnce y v =>
      if String.eqb x y then mkinfo (orelse (i_val i) (Some v)) (i_known i) (i_novar i) false else i
  | _ => i
  end.
Fixpoint info_in (t : trace) (x : string) (i : info) : info :=
  match t with
  | TNil => i
  | TOp o t => info_op o x (info_in t x i)
  | TWhen b l t =>
      let i := info_in t x i in
      if touches l x then
        let j := info_in l x i in
        mkinfo (if b then i_val j else i_val i) (i_known i && i_known j) (i_novar i && i_novar j) (i_nocache i && i_nocache j)
      else i
  end.
Definition base_info (k : base) (x : string) : info :=
  mkinfo (match assoc (b_vals k) x with Some v => v | None => None end)
         (match assoc (b_vals k) x with Some _ => true | None => false end)
         (mem x (b_novar k)) (mem x (b_nocache k)).
Definition var_info (k : base) (t : trace) (x : string) : info := info_in t x (base_info k x).

Definition right (st : state) (x : string) (i : info) : Prop :=
  (i_known i = true -> lookup st x = i_val i) /\ (i_novar i = true -> vars st x = None)
  /\ (i_nocache i = true -> cache st x = None).

Lemma upd_same {A} (f : string -> A) x v : upd f x v x = v.
Proof. unfold upd. now rewrite String.eqb_refl. Qed.
Lemma upd_other {A} (f : string -> A) x y v : String.eqb y x = false -> upd f x v y = f y.
Proof. unfold upd. now intros ->. Qed.

Lemma right_op o st x i : right st x i -> right (act o st) x (info_op o x i).
Proof.
  intros (A & B & C). unfold right.
  destruct o as [y [v|]|y v|y v|y v|y v|t|p ts|y f|p|d e|v|v|e]; cbn [info_op act]; try (split; [|split]; now auto);
  destruct (String.eqb x y) eqn:E;
    try (unfold lookup; cbn; rewrite (upd_other _ _ _ _ E); split; [|split]; now auto);
    apply String.eqb_eq in E; subst y; unfold lookup, defined in *; cbn; rewrite upd_same.
  - repeat split; auto; discriminate.
  - repeat split; auto.
  - split; [|split]; auto; [intros H; now rewrite (B H)|discriminate].
  - split; [|split]; auto; [|discriminate]. intros H. specialize (A H). revert A.
    destruct (vars st x), (cache st x); cbn; intros <-; reflexivity.
  - split; [|split]; auto; [|discriminate]. intros H. specialize (A H). revert A.
    destruct (vars st x), (cache st x); cbn; intros <-; reflexivity.
Qed.
Lemma untouched t st x : touches t x = false ->
  vars (apply t st) x = vars st x /\ cache (apply t st) x = cache st x.
Proof.
  revert st. induction t as [|o t IH|b l IHl t IH]; intros st H; auto; cbn in H; apply orb_false_elim in H as [H H'];
    destruct (IH st H') as [E E'].
  - cbn. destruct o; cbn in *; rewrite ?upd_other by auto; auto.
  - cbn. destruct b; auto. destruct (IHl (apply t st) H) as [F F']. now rewrite F, F'.
Qed.
Lemma right_in t st x i : right st x i -> right (apply t st) x (info_in t x i).
Proof.
  revert st i. induction t as [|o t IH|b l IHl t IH]; intros st i H; auto.
  - apply right_op. now apply IH.
  - specialize (IH _ _ H). cbn [apply info_in]. cbv zeta. destruct (touches l x) eqn:E.
    + specialize (IHl _ _ IH). destruct IH as (A & B & C), IHl as (A' & B' & C').
      unfold right. cbn [i_val i_known i_novar i_nocache].
      split; [|split]; intros K; apply andb_prop in K as [K K']; destruct b; auto.
    + destruct b; auto. destruct (untouched l (apply t st) x E) as [F F'].
      unfold right, lookup in *. now rewrite F, F'.
Qed.
Lemma right_base h k st x : fits h k st -> right st x (base_info k x).
Proof.
  intros F. unfold base_info, right; cbn. split; [|split]; [|apply F|apply F].
  destruct (assoc (b_vals k) x) eqn:E; [|discriminate]. intros _. now apply (f_vals h k st F).
Qed.
Lemma var_sound h k st t x : fits h k st -> i_known (var_info k t x) = true ->
  lookup (apply t st) x = i_val (var_info k t x).
Proof. intros F. apply (right_in t st x _ (right_base h k st x F)). Qed.

(** Targets. *)
Definition op_gives (k : base) (o : op) (x : string) : option bool :=  (* Some true: it is made; None: not known *)
  match o with
  | OTarget y => Some (String.eqb x y)
  | OTargets p _ => if gives k p x then Some true else if mem x (b_names k) then Some false else None
  | _ => Some false
  end.
Fixpoint tgt (k : base) (t : trace) (x : string) (i : bool * bool) : bool * bool :=   (* value, known *)
  match t with
  | TNil => i
  | TOp o t =>
      match op_gives k o x with
      | Some true => (true, true)
      | Some false => tgt k t x i
      | None => (false, false)
      end
  | TWhen b l t =>
      let i := tgt k t x i in
      let j := tgt k l x i in
      ((if Bool.eqb (fst j) (fst i) then fst i else if b then fst j else fst i), snd i && snd j)
  end.
Definition target_info (k : base) (t : trace) (x : string) : bool * bool := tgt k t x (false, mem x (b_names k)).

Fixpoint provided (h : host) (t : trace) : Prop :=
  match t with
  | TNil => True
  | TOp (OTargets p ts) t => ts = h_provides h p /\ provided h t
  | TOp _ t => provided h t
  | TWhen _ l t => provided h l /\ provided h t
  end.
Lemma target_in h k st t x s i : fits h k st -> provided h t -> (snd i = true -> exists_target s x = fst i) ->
  snd (tgt k t x i) = true -> exists_target (apply t s) x = fst (tgt k t x i).
Proof.
  intros F. revert s i. induction t as [|o t IH|b l IHl t IH]; intros s i P H K; cbn in *; auto.
  - destruct o; cbn in *; auto.
    + unfold upd. destruct (String.eqb x t0); cbn in *; auto.
    + destruct P as [-> P]. destruct (gives k x0 x) eqn:G; cbn in *.
      * now rewrite (f_gives h k st F _ _ G).
      * destruct (mem x (b_names k)) eqn:M; [|discriminate K].
        rewrite (f_provides h k st F _ x0 M). cbn. auto.
  - destruct P as [P P']. apply andb_prop in K as [K K'].
    specialize (IH s i P' H K). specialize (IHl (apply t s) (tgt k t x i) P (fun _ => IH) K').
    destruct b; [rewrite IHl|rewrite IH];
      destruct (Bool.eqb (fst (tgt k l x (tgt k t x i))) (fst (tgt k t x i))) eqn:E; auto.
    now apply Bool.eqb_prop in E.
Qed.
Lemma target_sound h k st t x : fits h k st -> provided h t -> snd (target_info k t x) = true ->
  exists_target (apply t st) x = fst (target_info k t x).
Proof.
  intros F P. apply (target_in h k st); auto. cbn. intros M. now apply (f_names h k st F).
Qed.

(** The directory. *)
Fixpoint enters (t : trace) : bool :=
  match t with
  | TNil => false
  | TOp (OEnter _ _) _ => true
  | TOp _ t => enters t
  | TWhen _ l t => enters l || enters t
  end.
Fixpoint dir_in (t : trace) (d : string * bool) : option (string * bool) :=
  match t with
  | TNil => Some d
  | TOp (OEnter d x) _ => Some (d, x)
  | TOp _ t => dir_in t d
  | TWhen _ l t => if enters l then None else dir_in t d
  end.
Fixpoint sets_options (t : trace) : bool :=
  match t with
  | TNil => false
  | TOp (OOptions _) _ => true
  | TOp _ t => sets_options t
  | TWhen _ l t => sets_options l || sets_options t
  end.
Fixpoint options_in (t : trace) (v : value) : value :=
  match t with
  | TNil => v
  | TOp (OOptions v) _ => v
  | TOp _ t => options_in t v
  | TWhen b l t => if sets_options l then if b then options_in l (options_in t v) else options_in t v else options_in t v
  end.
Fixpoint sets_links (t : trace) : bool :=
  match t with
  | TNil => false
  | TOp (OLinkOptions _) _ => true
  | TOp _ t => sets_links t
  | TWhen _ l t => sets_links l || sets_links t
  end.
Fixpoint links_in (t : trace) (v : value) : value :=
  match t with
  | TNil => v
  | TOp (OLinkOptions v) _ => v
  | TOp _ t => links_in t v
  | TWhen b l t => if sets_links l then if b then links_in l (links_in t v) else links_in t v else links_in t v
  end.

Lemma dir_stays t st : enters t = false -> dir (apply t st) = dir st /\ excl (apply t st) = excl st.
Proof.
  revert st. induction t as [|o t IH|b l IHl t IH]; intros st H; auto; cbn in *.
  - destruct o; cbn in *; auto; discriminate.
  - apply orb_false_elim in H as [H H']. destruct (IH st H') as [E E'].
    destruct b; auto. destruct (IHl (apply t st) H) as [G G']. now rewrite G, G'.
Qed.
Lemma dir_sound t st d x d' x' : dir st = d -> excl st = x -> dir_in t (d, x) = Some (d', x') ->
  dir (apply t st) = d' /\ excl (apply t st) = x'.
Proof.
  intros Hd Hx. induction t as [|o t IH|b l IHl t IH]; cbn.
  - intros [= <- <-]; auto.
  - destruct o; cbn; auto. intros [= <- <-]; auto.
  - destruct (enters l) eqn:E; [discriminate|]. intros H. destruct (IH H) as [A B].
    destruct b; auto. destruct (dir_stays l (apply t st) E) as [G G']. now rewrite G, G'.
Qed.
Lemma options_stay t st : sets_options t = false -> dopts (apply t st) = dopts st.
Proof.
  revert st. induction t as [|o t IH|b l IHl t IH]; intros st H; auto; cbn in *.
  - destruct o; cbn in *; auto; discriminate.
  - apply orb_false_elim in H as [H H']. destruct b; auto. rewrite IHl; auto.
Qed.
Lemma options_sound t st : dopts (apply t st) = options_in t (dopts st).
Proof.
  revert st. induction t as [|o t IH|b l IHl t IH]; intros st; auto; cbn.
  - destruct o; cbn; auto.
  - destruct (sets_options l) eqn:E; [destruct b; auto; now rewrite IHl, IH|].
    destruct b; auto. rewrite options_stay; auto.
Qed.
Lemma links_stay t st : sets_links t = false -> dlink (apply t st) = dlink st.
Proof.
  revert st. induction t as [|o t IH|b l IHl t IH]; intros st H; auto; cbn in *.
  - destruct o; cbn in *; auto; discriminate.
  - apply orb_false_elim in H as [H H']. destruct b; auto. rewrite IHl; auto.
Qed.
Lemma links_sound t st : dlink (apply t st) = links_in t (dlink st).
Proof.
  revert st. induction t as [|o t IH|b l IHl t IH]; intros st; auto; cbn.
  - destruct o; cbn; auto.
  - destruct (sets_links l) eqn:E; [destruct b; auto; now rewrite IHl, IH|].
    destruct b; auto. rewrite links_stay; auto.
Qed.

(** Functions and files read. *)
Fixpoint defines (t : trace) (x : string) : bool :=
  match t with
  | TNil => false
  | TOp (OFunction y _) t => String.eqb x y || defines t x
  | TOp _ t => defines t x
  | TWhen _ l t => defines l x || defines t x
  end.
Fixpoint function_in (t : trace) (x : string) : option fundef :=
  match t with
  | TNil => None
  | TOp (OFunction y f) t => if String.eqb x y then Some f else function_in t x
  | TOp _ t => function_in t x
  | TWhen _ l t => if defines l x then None else function_in t x
  end.
Fixpoint guards (t : trace) (p : string) : bool :=
  match t with
  | TNil => false
  | TOp (OGuard q) t => String.eqb p q || guards t p
  | TOp _ t => guards t p
  | TWhen _ l t => guards l p || guards t p
  end.
Fixpoint guard_in (t : trace) (p : string) : option bool :=
  match t with
  | TNil => Some false
  | TOp (OGuard q) t => if String.eqb p q then Some true else guard_in t p
  | TOp _ t => guard_in t p
  | TWhen _ l t => if guards l p then None else guard_in t p
  end.
Lemma functions_stay t st x : defines t x = false -> funcs (apply t st) x = funcs st x.
Proof.
  revert st. induction t as [|o t IH|b l IHl t IH]; intros st H; auto; cbn in *.
  - destruct o; cbn in *; auto. apply orb_false_elim in H as [H H']. rewrite upd_other; auto.
  - apply orb_false_elim in H as [H H']. destruct b; auto. rewrite IHl; auto.
Qed.
Lemma function_sound t st x f : function_in t x = Some f -> funcs (apply t st) x = Some f.
Proof.
  induction t as [|o t IH|b l IHl t IH]; cbn; [discriminate| |].
  - destruct o; cbn; auto. unfold upd. destruct (String.eqb x x0); auto.
  - destruct (defines l x) eqn:E; [discriminate|]. intros H. destruct b; auto. rewrite functions_stay; auto.
Qed.
Lemma guards_stay t st p : guards t p = false -> guarded (apply t st) p = guarded st p.
Proof.
  revert st. induction t as [|o t IH|b l IHl t IH]; intros st H; auto; cbn in *.
  - destruct o; cbn in *; auto. apply orb_false_elim in H as [H H']. rewrite upd_other; auto.
  - apply orb_false_elim in H as [H H']. destruct b; auto. rewrite IHl; auto.
Qed.
Lemma guard_sound t st p b : guarded st p = false -> guard_in t p = Some b -> guarded (apply t st) p = b.
Proof.
  intros G. induction t as [|o t IH|c l IHl t IH]; cbn; [intros [= <-]; auto| |].
  - destruct o; cbn; auto. unfold upd. destruct (String.eqb p p0); auto. intros [= <-]; auto.
  - destruct (guards l p) eqn:E; [discriminate|]. intros H. destruct c; auto. rewrite guards_stay; auto.
Qed.

(** * What a command looks at *)

Definition refs (a : arg) : list string :=
  flat_map (fun p => match p with Ref x => [x] | _ => [] end) (pieces a).
Definition names_of (ws : list word) : list string := map w_text (filter may_name ws).
Definition needs (name : string) (args : list string) : list string :=
  if String.eqb name "list" then match args with _ :: x :: _ => [x] | _ => [] end
  else if String.eqb name "separate_arguments" then match args with x :: _ => [x] | _ => [] end
  else if String.eqb name "project" then ["CMAKE_SOURCE_DIR"]
  else [].
Definition needs_targets (name : string) (args : list string) : list string :=
  if mem name (["add_executable"; "add_library"; "add_custom_target"] ++ on_target) then
    match args with t :: _ => [t] | [] => [] end
  else if String.eqb name "set_target_properties" then before ["PROPERTIES"] args
  else if String.eqb name "set_property" then match args with _ :: r => before ["APPEND"; "PROPERTY"] r | [] => [] end
  else if String.eqb name "get_target_property" then match args with _ :: t :: _ => [t] | _ => [] end
  else [].

Section Agree.
Variable h : host.
Variables l1 l2 : string -> option value.

Lemma expand_agree a : (forall x, In x (refs a) -> l1 x = l2 x) -> expand h l1 a = expand h l2 a.
Proof.
  intros H.
  assert (P : forall p, In p (pieces a) -> piece_value h l1 p = piece_value h l2 p).
  { intros [s|x|x] I; auto. cbn. unfold get. rewrite H; auto.
    unfold refs. apply in_flat_map. exists (Ref x). split; cbn; auto. }
  enough (V : arg_value h l1 a = arg_value h l2 a) by (unfold expand; now rewrite V).
  unfold arg_value. revert P. generalize (pieces a). intros ps P.
  assert (E : fold_right (fun p r => glue (piece_value h l1 p) r) [] ps = fold_right (fun p r => glue (piece_value h l2 p) r) [] ps).
  { clear H. induction ps as [|p ps IH]; auto. cbn. rewrite P by (left; auto). rewrite IH; auto. intros q I. apply P. now right. }
  destruct ps as [|p [|q ps]]; auto. apply P. now left.
Qed.
Lemma expand_all_agree l : (forall x, In x (flat_map refs l) -> l1 x = l2 x) -> expand_all h l1 l = expand_all h l2 l.
Proof.
  unfold expand_all. induction l as [|a l IH]; auto. cbn. intros H. rewrite expand_agree, IH; auto;
    intros x I; apply H; apply in_or_app; auto.
Qed.
Lemma words_agree l : (forall x, In x (flat_map refs l) -> l1 x = l2 x) -> words h l1 l = words h l2 l.
Proof.
  unfold words. induction l as [|a l IH]; auto. cbn. intros H. rewrite IH by (intros x I; apply H; apply in_or_app; auto).
  f_equal. assert (E : expand h l1 a = expand h l2 a) by (apply expand_agree; intros x I; apply H; apply in_or_app; auto).
  destruct a as [[|] [|[s|x|x] [|]]]; auto; now rewrite E.
Qed.
Lemma names_in w ws : In w ws -> may_name w = true -> In (w_text w) (names_of ws).
Proof. intros I M. unfold names_of. apply in_map. apply filter_In; auto. Qed.
Definition agree (ws : list word) : Prop := forall x, In x (names_of ws) -> l1 x = l2 x.
Lemma agree_cons w ws : agree (w :: ws) -> agree ws.
Proof. intros H x I. apply H. unfold names_of in *. cbn. destruct (may_name w); cbn; auto. Qed.
Lemma agree_name w ws : agree (w :: ws) -> may_name w = true -> l1 (w_text w) = l2 (w_text w).
Proof. intros H M. apply H. apply names_in; auto. now left. Qed.
Lemma factor_agree n ws : agree ws ->
  factor l1 n ws = factor l2 n ws /\ (forall b r, factor l1 n ws = Some (b, r) -> agree r).
Proof.
  assert (O : forall w ws, agree (w :: ws) -> operand l1 w = operand l2 w).
  { intros w l A. unfold operand. destruct (may_name w) eqn:M; auto. now rewrite (agree_name _ _ A M). }
  assert (W : forall w ws, agree (w :: ws) -> test_word l1 w = test_word l2 w).
  { intros w l A. unfold test_word. destruct (may_name w) eqn:M; auto. now rewrite (agree_name _ _ A M). }
  revert ws. induction n as [|n IH]; intros ws A; [split; [auto|discriminate]|].
  destruct ws as [|w ws]; [split; [auto|discriminate]|]. cbn [factor].
  pose proof (agree_cons _ _ A) as A1. destruct (keyword w "NOT").
  { destruct (IH ws A1) as [E R]. rewrite E in *. split; auto. intros b r.
    destruct (factor l2 n ws) as [[c q]|]; [|discriminate]. intros [= <- <-]. now apply (R c). }
  destruct (keyword w "DEFINED").
  { destruct ws as [|x ws]; [split; [auto|discriminate]|]. pose proof (agree_cons _ _ A1) as A2.
    destruct (may_name x) eqn:M; [|split; [auto|discriminate]].
    unfold defined. rewrite (agree_name _ _ A1 M). split; auto. intros b r [= <- <-]; auto. }
  destruct ws as [|op [|b ws]].
  - rewrite (W _ _ A). split; auto. intros c r [= <- <-]; auto.
  - rewrite (W _ _ A). split; auto. intros c r [= <- <-]; auto.
  - pose proof (agree_cons _ _ A1) as A2. pose proof (agree_cons _ _ A2) as A3.
    destruct (binary op).
    + assert (T : test_binary l1 w op b = test_binary l2 w op b) by (unfold test_binary; now rewrite (O _ _ A), (O _ _ A2)).
      rewrite T. split; auto. intros c r. destruct (test_binary l2 w op b); [|discriminate]. intros [= <- <-]; auto.
    + rewrite (W _ _ A). split; auto. intros c r [= <- <-]; auto.
Qed.
Lemma terms_agree n acc ws : agree ws -> terms l1 n acc ws = terms l2 n acc ws.
Proof.
  revert acc ws. induction n as [|n IH]; intros acc ws A; destruct ws as [|w ws]; auto.
  cbn [terms]. destruct (factor_agree (S n) ws (agree_cons _ _ A)) as [E R]. rewrite E in *.
  destruct (factor l2 (S n) ws) as [[b r]|]; auto. specialize (R b r eq_refl).
  destruct (keyword w "AND"); auto. destruct (keyword w "OR"); auto.
Qed.
Lemma condition_agree l : (forall x, In x (flat_map refs l) -> l1 x = l2 x) ->
  (forall x, In x (names_of (words h l1 l)) -> l1 x = l2 x) -> condition h l1 l = condition h l2 l.
Proof.
  intros H A. unfold condition. rewrite (words_agree l H) in *. cbv zeta.
  destruct (factor_agree (List.length (words h l2 l)) _ A) as [E R]. rewrite E in *.
  destruct (factor l2 _ _) as [[b r]|]; auto. apply terms_agree. now apply (R b).
Qed.
End Agree.

Lemma if_cong (b : bool) (x x' y y' : outcome) :
  (b = true -> x = x') -> (b = false -> y = y') -> (if b then x else y) = (if b then x' else y').
Proof. destruct b; auto. Qed.
Lemma effects_agree h w w' name args :
  (forall x, In x (needs name args) -> look w x = look w' x) ->
  (forall t, In t (needs_targets name args) -> has w t = has w' t) ->
  v_dir w = v_dir w' -> v_excl w = v_excl w' -> v_opts w = v_opts w' -> v_links w = v_links w' ->
  effects h w name args = effects h w' name args.
Proof.
  intros L T D X O K.
  assert (S : forall ts, (forall t, In t ts -> has w t = has w' t) -> forall c a, say_on w ts c a = say_on w' ts c a).
  { intros ts H c a. unfold say_on. enough (E : missing w ts = missing w' ts) by now rewrite E.
    unfold missing. induction ts as [|t ts IH]; auto. cbn. rewrite H by now left. rewrite IH; auto. intros u I. apply H. now right. }
  assert (M : forall t k x l, has w t = has w' t -> make_target w t k x l = make_target w' t k x l).
  { intros t k x l H. unfold make_target. now rewrite H, X, O, K. }
  assert (G : forall x, look w x = look w' x -> get (look w) x = get (look w') x) by (intros x H; unfold get; now rewrite H).
  assert (N : forall c, mem c on_target = true -> needs_targets c args = match args with t :: _ => [t] | [] => [] end).
  { intros c Hc. unfold needs_targets. assert (E : mem c (["add_executable"; "add_library"; "add_custom_target"] ++ on_target) = true).
    { unfold mem in *. rewrite existsb_app, Hc. apply orb_true_r. }
    now rewrite E. }
  unfold effects. cbv zeta.
  Ltac name_is E := apply String.eqb_eq in E; subst.
  apply if_cong; intros E; [reflexivity|clear E].
  apply if_cong; intros E; [name_is E|clear E].
  { destruct args as [|o [|x r]]; [reflexivity..|]. rewrite (G x); [reflexivity|]. apply L. now left. }
  apply if_cong; intros E; [reflexivity|clear E].
  apply if_cong; intros E; [name_is E|clear E].
  { rewrite (G "CMAKE_SOURCE_DIR"), D; [reflexivity|]. apply L. now left. }
  apply if_cong; intros E; [reflexivity|clear E].
  apply if_cong; intros E; [reflexivity|clear E].
  apply if_cong; intros E; [name_is E|clear E].
  { destruct args as [|x [|]]; [reflexivity| |reflexivity]. rewrite (G x); [reflexivity|]. apply L. now left. }
  apply if_cong; intros E; [now rewrite O|clear E].
  apply if_cong; intros E; [now rewrite K|clear E].
  apply if_cong; intros E; [reflexivity|clear E].
  do 3 (apply if_cong; intros E; [name_is E; destruct args as [|t r]; [reflexivity|]; apply M, T; now left|clear E]).
  apply if_cong; intros E; [specialize (N _ E); rewrite N in T; destruct args as [|t r]; [reflexivity|]; now apply S|clear E].
  apply if_cong; intros E; [name_is E; now apply S|clear E].
  apply if_cong; intros E; [name_is E; destruct args as [|t r]; [reflexivity|]|clear E].
  { apply if_cong; intros E; [|reflexivity]. now apply S. }
  do 9 (apply if_cong; intros E; [reflexivity|clear E]).
  apply if_cong; intros E; [name_is E|reflexivity].
  destruct args as [|x [|t [|k [|]]]]; [reflexivity..| |reflexivity].
  apply if_cong; intros E; [|reflexivity]. rewrite (T t); [reflexivity|]. now left.
Qed.

(** * Scopes *)

Definition local (o : op) : bool :=
  match o with OVar _ _ | OEnter _ _ | OOptions _ | OLinkOptions _ => true | _ => false end.
Fixpoint globals (t : trace) : trace :=
  match t with
  | TNil => TNil
  | TOp o t => if local o then globals t else TOp o (globals t)
  | TWhen b l t => TWhen b (globals l) (globals t)
  end.
Fixpoint set_names (t : trace) : list string :=
  match t with
  | TNil => []
  | TOp (OVar x _) t => x :: set_names t
  | TOp _ t => set_names t
  | TWhen _ l t => set_names l ++ set_names t
  end.
Fixpoint default_names (t : trace) : list string :=
  match t with
  | TNil => []
  | TOp (ODefault x _) t => x :: default_names t
  | TOp _ t => default_names t
  | TWhen _ l t => default_names l ++ default_names t
  end.
Definition goes_up (o : op) : bool := match o with OUp _ _ => true | _ => false end.
Fixpoint no_up (t : trace) : bool :=
  match t with
  | TNil => true
  | TOp o t => negb (goes_up o) && no_up t
  | TWhen _ l t => no_up l && no_up t
  end.
Definition scoped (t : trace) : bool := forallb (fun x => negb (mem x (set_names t))) (default_names t).

Lemma no_up_app d t : no_up (tapp d t) = no_up d && no_up t.
Proof. induction d; cbn; auto; now rewrite IHd, andb_assoc || rewrite IHd2, andb_assoc. Qed.
Lemma no_up_pushes l t : no_up (pushes l t) = forallb (fun o => negb (goes_up o)) l && no_up t.
Proof.
  revert t. induction l as [|o l IH]; intros t; auto. cbn. unfold pushes in *. rewrite IH. cbn.
  destruct (goes_up o), (forallb (fun o => negb (goes_up o)) l); auto.
Qed.
Lemma up_apply t st : no_up t = true -> up (apply t st) = up st.
Proof.
  revert st. induction t as [|o t IH|b l IHl t IH]; intros st H; auto; cbn in *; apply andb_prop in H as [H H'].
  - destruct o; cbn in *; auto; discriminate.
  - destruct b; auto. rewrite IHl; auto.
Qed.
Lemma no_up_globals t : no_up t = true -> no_up (globals t) = true.
Proof.
  induction t as [|o t IH|b l IHl t IH]; auto; cbn; intros H; apply andb_prop in H as [H H'].
  - destruct (local o); cbn; auto. now rewrite H, IH.
  - now rewrite IHl, IH.
Qed.

Record like (V : list string) (s o : state) : Prop := {
  k_cache : cache s = cache o; k_funcs : funcs s = funcs o; k_guarded : guarded s = guarded o;
  k_targets : exists_target s = exists_target o; k_record : record s = record o;
  k_vars : forall x, mem x V = false -> vars s x = vars o x }.
Lemma like_op V o s s' : like V s s' -> goes_up o = false ->
  (forall x v, o = OVar x v -> mem x V = true) -> (forall x v, o = ODefault x v -> mem x V = false) ->
  like V (act o s) (if local o then s' else act o s').
Proof.
  intros [A B C D E G] U Hv Hd. destruct o; cbn in *; try discriminate U; split; cbn; auto; try congruence;
    try (rewrite ?A, ?B, ?C, ?D, ?E; reflexivity).
  - intros y Hy. unfold upd. destruct (String.eqb y x) eqn:Q; auto.
    apply String.eqb_eq in Q; subst y. rewrite (Hv x v eq_refl) in Hy. discriminate.
  - unfold defined, lookup. now rewrite A, (G x (Hd x v eq_refl)).
Qed.
Lemma incl_mem V x l : In x l -> incl l V -> mem x V = true.
Proof. intros I H. unfold mem. apply existsb_exists. exists x. split; [now apply H|apply String.eqb_refl]. Qed.
Lemma like_apply V t s s' : like V s s' -> no_up t = true -> incl (set_names t) V ->
  (forall x, In x (default_names t) -> mem x V = false) -> like V (apply t s) (apply (globals t) s').
Proof.
  revert s s'. induction t as [|o t IH|b l IHl t IH]; intros s s' L U I D; auto; cbn in U; apply andb_prop in U as [U U'].
  - assert (IH' : like V (apply t s) (apply (globals t) s')).
    { apply IH; auto.
      - intros x Hx. apply I. cbn. destruct o; cbn; auto.
      - intros x Hx. apply D. cbn. destruct o; cbn; auto. }
    cbn [apply globals].
    assert (G : apply (if local o then globals t else TOp o (globals t)) s' =
                if local o then apply (globals t) s' else act o (apply (globals t) s')) by (destruct (local o); auto).
    rewrite G. apply like_op; auto.
    + now apply negb_true_iff.
    + intros x v ->. apply (incl_mem V x (set_names (TOp (OVar x v) t))); cbn; auto.
    + intros x v ->. apply D. now left.
  - cbn [apply globals]. cbv zeta. cbn in I, D.
    assert (IH' : like V (apply t s) (apply (globals t) s')).
    { apply IH; auto; [intros x Hx; apply I|intros x Hx; apply D]; apply in_or_app; auto. }
    destruct b; auto. apply IHl; auto; [intros x Hx; apply I|intros x Hx; apply D]; apply in_or_app; auto.
Qed.
Lemma globals_keep t s : no_up t = true ->
  let s' := apply (globals t) s in
  vars s' = vars s /\ up s' = up s /\ dir s' = dir s /\ excl s' = excl s /\ dopts s' = dopts s /\ dlink s' = dlink s.
Proof.
  revert s. induction t as [|o t IH|b l IHl t IH]; intros s U; cbv zeta; [cbn; repeat split| |]; cbn in U; apply andb_prop in U as [U U'].
  - cbn [globals]. specialize (IH s U'). cbv zeta in IH. destruct o; cbn in *; auto; discriminate.
  - cbn [apply globals]. cbv zeta. specialize (IH s U'). cbv zeta in IH. destruct b; auto.
    specialize (IHl (apply (globals t) s) U). cbv zeta in IHl.
    destruct IH as (A & B & C & D & E & G), IHl as (A' & B' & C' & D' & E' & G'). repeat split; congruence.
Qed.
Lemma scope_sound t st : no_up t = true -> scoped t = true -> up st = [] ->
  leave st (apply t st) = apply (globals t) st.
Proof.
  intros U S E.
  assert (L : like (set_names t) (apply t st) (apply (globals t) st)).
  { apply like_apply; auto; [repeat split; auto|apply incl_refl|].
    intros x Hx. unfold scoped in S. rewrite forallb_forall in S. now apply negb_true_iff, S. }
  destruct (globals_keep t st U) as (A & B & C & D & F & G). destruct L as [A1 B1 C1 D1 E1 _].
  unfold leave. rewrite (up_apply t st U), E. cbn [fold_left].
  unfold with_dir, with_up, with_vars. cbn.
  rewrite A1, B1, C1, D1, E1.
  revert A B C D F G. generalize (apply (globals t) st). intros s A B C D F G.
  rewrite <- A, <- C, <- D, <- F, <- G. destruct s; cbn in *. congruence.
Qed.

(** * Symbolic runs *)

Inductive sflow := Falls | Returns | Either.
Definition flow_ok (s : sflow) (f : flow) : Prop :=
  match s with Falls => f = Next | Returns => f = Returned | Either => True end.

Section Symbolic.
Variable h : host.
Variable files : string -> option (list stmt).
Variable k : base.

Definition sview (t : trace) (d : string * bool) : view :=
  mkview (fun x => i_val (var_info k t x)) (fun x => fst (target_info k t x)) (fst d) (snd d)
         (options_in t (b_opts k)) (links_in t (b_links k)).
Definition known (t : trace) (l : list string) : bool := forallb (fun x => i_known (var_info k t x)) l.
Definition known_targets (t : trace) (l : list string) : bool := forallb (fun x => snd (target_info k t x)) l.

(** The changes that a command makes. *)
Definition scommand (t : trace) (name : string) (args : list string) : option trace :=
  match dir_in t (b_dir k, b_excl k) with
  | None => None
  | Some d =>
      if known t (needs name args) && known_targets t (needs_targets name args) then
        match effects h (sview t d) name args with
        | Ok l => if forallb (fun o => negb (goes_up o)) l then Some (pushes l TNil) else None
        | _ => None
        end
      else None
  end.
Definition scope (d : trace) (l : list op) : option trace :=   (* d: inside the scope, after l *)
  let d := tapp d (pushes l TNil) in
  if scoped d then Some (globals d) else None.

Definition smerge (b : bool) (x y : trace) : trace := TWhen b x (TWhen (negb b) y TNil).
Definition sthen (a : option (trace * sflow)) (t : trace) (next : trace -> option (trace * sflow)) : option (trace * sflow) :=
  match a with
  | Some (d, Falls) => match next (tapp d t) with Some (d', f) => Some (tapp d' d, f) | None => None end
  | _ => None
  end.
Definition falls (a : option trace) : option (trace * sflow) := match a with Some d => Some (d, Falls) | None => None end.

Definition sdo (ex : trace -> list stmt -> option (trace * sflow)) (t : trace) (name : string) (args : list string)
  : option trace :=
  if String.eqb name "include" then
    match args with
    | [p] =>
        match files p with
        | None => match module_ops h p with
                  | Some l => if forallb (fun o => negb (goes_up o)) l then Some (pushes l TNil) else None
                  | None => None
                  end
        | Some b =>
            if guard b then
              match guard_in t p with
              | Some false =>
                  match ex (TOp (OGuard p) t) b with
                  | Some (d, _) => Some (tapp d (TOp (OGuard p) TNil))
                  | None => None
                  end
              | _ => None
              end
            else match ex t b with Some (d, _) => Some d | None => None end
        end
    | _ => None
    end
  else if String.eqb name "add_subdirectory" then
    match args, dir_in t (b_dir k, b_excl k) with
    | p :: r, Some (d0, x0) =>
        let d := under d0 p in
        match files (d ++ "/CMakeLists.txt")%string with
        | Some b =>
            let l := enter_dir d (x0 || mem "EXCLUDE_FROM_ALL" r) in
            match ex (pushes l t) b with
            | Some (d, _) => scope d l
            | None => None
            end
        | None => None
        end
    | _, _ => None
    end
  else if String.eqb name "find_package" && package args then
    match args with
    | p :: _ =>
        match files (package_dir ++ "/" ++ p ++ "-config.cmake")%string with
        | Some b =>
            let o := OVar "CMAKE_CURRENT_LIST_DIR" (Some [package_dir]) in
            match ex (TOp o t) b with
            | Some (d, _) => Some (tapp d (TOp o TNil))
            | None => None
            end
        | None => None
        end
    | [] => None
    end
  else if mem name built_in then scommand t name args
  else
    match function_in t name with
    | None => None
    | Some f =>
        if f_macro f then
          match ex t (map (subst (combine (f_params f) args)) (f_body f)) with
          | Some (d, Falls) => Some d
          | _ => None
          end
        else
          let l := enter_function (f_params f) args in
          match ex (pushes l t) (f_body f) with
          | Some (d, _) => scope d l
          | None => None
          end
    end.

Fixpoint sexec (n : nat) (t : trace) (l : list stmt) {struct n} : option (trace * sflow) :=
  match n with
  | O => None
  | S n =>
      match l with
      | [] => Some (TNil, Falls)
      | If [] e :: rest => sthen (sexec n t e) t (fun t => sexec n t rest)
      | If ((c, b) :: bs) e :: rest =>
          let lk := fun x => i_val (var_info k t x) in
          if known t (flat_map refs c) && known t (names_of (words h lk c)) then
            match condition h lk c, sexec n t b with
            | Some v, Some (d1, Falls) =>
                match sexec n t [If bs e] with
                | Some (d2, Falls) => sthen (Some (smerge v d1 d2, Falls)) t (fun t => sexec n t rest)
                | _ => None
                end
            | Some v, Some (d1, Returns) =>
                match sexec n t (If bs e :: rest) with
                | Some (d2, _) => Some (smerge v d1 d2, Either)
                | None => None
                end
            | _, _ => None
            end
          else None
      | Define m x ps b :: rest =>
          sthen (Some (TOp (OFunction x (mkfun m ps b)) TNil, Falls)) t (fun t => sexec n t rest)
      | Foreach _ _ :: _ => None
      | Do name args :: rest =>
          if String.eqb name "return" then Some (TNil, Returns)
          else if known t (flat_map refs args) then
            sthen (falls (sdo (sexec n) t name (expand_all h (fun x => i_val (var_info k t x)) args))) t
              (fun t => sexec n t rest)
          else None
      end
  end.

(** * Every run is the one described *)

Definition op_provided (o : op) : Prop := match o with OTargets p ts => ts = h_provides h p | _ => True end.
Lemma provided_app d t : provided h d -> provided h t -> provided h (tapp d t).
Proof.
  induction d as [|o d IH|b l IHl d IH]; cbn; auto.
  - destruct o; cbn; intuition.
  - intuition.
Qed.
Lemma provided_pushes l t : Forall op_provided l -> provided h t -> provided h (pushes l t).
Proof.
  intros H. revert t. induction H as [|o l Ho H IH]; intros t P; auto. cbn. apply IH. destruct o; cbn in *; auto.
Qed.
Definition oks (o : outcome) : Prop := forall l, o = Ok l -> Forall op_provided l.
Lemma oks_if (b : bool) x y : oks x -> oks y -> oks (if b then x else y).
Proof. destruct b; auto. Qed.
Lemma oks_list l : Forall op_provided l -> oks (Ok l).
Proof. intros H l' [= <-]; auto. Qed.
Lemma effects_provided w name args : oks (effects h w name args).
Proof.
  assert (N : forall o, (forall l, o <> Ok l) -> oks o) by (intros o H l E; destruct (H l E)).
  assert (M : forall t c x l, oks (make_target w t c x l)).
  { intros. unfold make_target. apply oks_if; [apply N; discriminate|apply oks_list; repeat constructor]. }
  assert (S : forall ts c a, oks (say_on w ts c a)).
  { intros. unfold say_on. destruct (missing w ts); [apply N; discriminate|apply oks_list; repeat constructor]. }
  unfold effects. cbv zeta.
  repeat first [ apply oks_if
               | apply M | apply S
               | apply N; discriminate
               | apply oks_list; repeat constructor; fail
               | match goal with
                 | |- oks match ?a with [] => _ | _ => _ end => destruct a
                 | |- oks match number ?a with _ => _ end => destruct (number a)
                 end ].
  apply oks_list. rewrite Forall_map. apply Forall_forall. intros [x v] _. exact I.
Qed.

Variable st : state.
Hypothesis F : fits h k st.

Lemma known_sound t l x : known t l = true -> In x l -> lookup (apply t st) x = i_val (var_info k t x).
Proof. intros K I. unfold known in K. rewrite forallb_forall in K. apply (var_sound h); auto. Qed.
Lemma scommand_sound t name args d : provided h t -> scommand t name args = Some d ->
  run_command h (apply t st) name args = Done (apply (tapp d t) st) Next /\ no_up d = true /\ provided h d.
Proof.
  intros P. unfold scommand. destruct (dir_in t (b_dir k, b_excl k)) as [[d0 x0]|] eqn:E; [|discriminate].
  destruct (known t (needs name args) && known_targets t (needs_targets name args)) eqn:K; [|discriminate].
  apply andb_prop in K as [K K'].
  destruct (dir_sound t st _ _ _ _ (f_dir h k st F) (f_excl h k st F) E) as [D X].
  assert (A : effects h (view_of (apply t st)) name args = effects h (sview t (d0, x0)) name args).
  { apply effects_agree; cbn; auto.
    - intros x I. now apply (known_sound t _ x K).
    - intros x I. unfold known_targets in K'. rewrite forallb_forall in K'. apply (target_sound h); auto.
    - rewrite options_sound. now rewrite (f_opts h k st F).
    - rewrite links_sound. now rewrite (f_links h k st F). }
  destruct (effects h (sview t (d0, x0)) name args) as [l| |] eqn:Ef; try discriminate.
  destruct (forallb (fun o => negb (goes_up o)) l) eqn:U; [|discriminate].
  intros [= <-]. unfold run_command. rewrite A. split; [|split].
  - f_equal. rewrite apply_tapp, apply_pushes. reflexivity.
  - now rewrite no_up_pushes, U.
  - apply provided_pushes; cbn; auto. now apply (effects_provided _ _ _ l Ef).
Qed.

Definition described (t : trace) (l : list stmt) (d : trace) (f : sflow) : Prop :=
  no_up d = true /\ provided h d /\
  exists fl, flow_ok f fl /\ runs h files (apply t st) l (Done (apply (tapp d t) st) fl).

Lemma provided_globals t : provided h t -> provided h (globals t).
Proof.
  induction t as [|o t IH|b l IHl t IH]; auto; cbn; [|intuition]. destruct o; cbn; intuition.
Qed.
Lemma scope_described d l t d' : no_up t = true -> no_up d = true -> provided h d -> provided h t ->
  Forall op_provided l -> forallb (fun o => negb (goes_up o)) l = true ->
  scope d l = Some d' ->
  no_up d' = true /\ provided h d' /\
  leave (apply t st) (apply (tapp d (pushes l t)) st) = apply (tapp d' t) st /\
  acts l (with_up (apply t st) []) = apply (pushes l t) st.
Proof.
  intros Ut Ud Pd Pt Pl Ul. unfold scope. destruct (scoped (tapp d (pushes l TNil))) eqn:S; [|discriminate].
  intros [= <-].
  assert (U : no_up (tapp d (pushes l TNil)) = true) by (rewrite no_up_app, no_up_pushes, Ud, Ul; auto).
  assert (E : up (apply t st) = []) by (rewrite up_apply; auto; apply (f_up h k st F)).
  split; [now apply no_up_globals|]. split.
  { apply provided_globals, provided_app; auto. apply provided_pushes; cbn; auto. }
  split.
  - rewrite (pushes_tapp l t), <- tapp_assoc, apply_tapp, (apply_tapp _ t). apply scope_sound; auto.
  - rewrite apply_pushes. f_equal. destruct (apply t st); cbn in *. now rewrite E.
Qed.
Lemma map_provided {A} (g : A -> op) l : (forall a, op_provided (g a)) -> Forall op_provided (map g l).
Proof. intros H. apply Forall_map, Forall_forall. auto. Qed.

Lemma sdo_sound n t name args d :
  (forall t l d f, no_up t = true -> provided h t -> sexec n t l = Some (d, f) -> described t l d f) ->
  String.eqb name "return" = false -> no_up t = true -> provided h t ->
  sdo (sexec n) t name (expand_all h (lookup (apply t st)) args) = Some d -> described t [Do name args] d Falls.
Proof.
  intros IH E0 U P. unfold sdo.
  destruct (String.eqb name "include") eqn:E1.
  { apply String.eqb_eq in E1; subst. clear E0. remember (expand_all h (lookup (apply t st)) args) as vs eqn:Ev.
    destruct vs as [|p [|]]; try discriminate. symmetry in Ev.
    destruct (files p) as [b|] eqn:Ef.
    - destruct (guard b) eqn:Eg.
      + destruct (guard_in t p) as [[|]|] eqn:Eq; try discriminate.
        destruct (sexec n (TOp (OGuard p) t) b) as [[d1 f1]|] eqn:Ex; [|discriminate]. intros [= <-].
        destruct (IH (TOp (OGuard p) t) _ _ _ U P Ex) as (U1 & P1 & fl & _ & R).
        split; [now rewrite no_up_app, U1|]. split; [now apply provided_app|].
        exists Next. split; [reflexivity|].
        eapply runs_include; eauto.
        * apply guard_sound; auto. apply (f_guarded h k st F).
        * rewrite tapp_assoc. cbn [tapp]. apply runs_nil.
      + destruct (sexec n t b) as [[d1 f1]|] eqn:Ex; [|discriminate]. intros [= <-].
        destruct (IH _ _ _ _ U P Ex) as (U1 & P1 & fl & _ & R). split; [|split]; auto.
        exists Next. split; [reflexivity|]. eapply runs_include_plain; eauto. apply runs_nil.
    - destruct (module_ops h p) as [l|] eqn:Em; [|discriminate].
      destruct (forallb (fun o => negb (goes_up o)) l) eqn:Ul; [|discriminate]. intros [= <-].
      split; [now rewrite no_up_pushes, Ul|]. split.
      { apply provided_pushes; cbn; auto. revert Em. unfold module_ops.
        destruct (String.eqb p "GNUInstallDirs"); [intros [= <-]; repeat constructor|].
        destruct (mem p modules); [intros [= <-]; constructor|discriminate]. }
      exists Next. split; [reflexivity|]. eapply runs_module; eauto.
      + unfold run_module. now rewrite Em.
      + rewrite apply_tapp, apply_pushes. apply runs_nil. }
  destruct (String.eqb name "add_subdirectory") eqn:E2.
  { apply String.eqb_eq in E2; subst. clear E0 E1. remember (expand_all h (lookup (apply t st)) args) as vs eqn:Ev.
    destruct vs as [|p r]; try discriminate. symmetry in Ev.
    destruct (dir_in t (b_dir k, b_excl k)) as [[d0 x0]|] eqn:Ed; [|discriminate]. cbv zeta.
    destruct (dir_sound t st _ _ _ _ (f_dir h k st F) (f_excl h k st F) Ed) as [D X].
    destruct (files _) as [b|] eqn:Ef; [|discriminate].
    set (l := enter_dir (under d0 p) (x0 || mem "EXCLUDE_FROM_ALL" r)).
    assert (Pl : Forall op_provided l) by (repeat constructor).
    destruct (sexec n (pushes l t) b) as [[d1 f1]|] eqn:Ex; [|discriminate].
    intros Es.
    assert (Up : no_up (pushes l t) = true) by (now rewrite no_up_pushes).
    destruct (IH _ _ _ _ Up (provided_pushes l t Pl P) Ex) as (U1 & P1 & fl & _ & R).
    destruct (scope_described d1 l t d U U1 P1 P Pl eq_refl Es) as (A & B & C & D').
    split; [|split]; auto. exists Next. split; [reflexivity|].
    eapply runs_subdirectory; [exact Ev|rewrite D; exact Ef| |rewrite C; apply runs_nil].
    rewrite D, X. fold l. rewrite D'. exact R. }
  destruct (String.eqb name "find_package" && package (expand_all h (lookup (apply t st)) args)) eqn:E3.
  { pose proof E3 as E4. apply andb_prop in E4 as [E4 E5]. apply String.eqb_eq in E4; subst.
    remember (expand_all h (lookup (apply t st)) args) as vs eqn:Ev. destruct vs as [|p r]; [discriminate|]. symmetry in Ev.
    destruct (files _) as [b|] eqn:Ef; [|discriminate]. cbv zeta.
    set (o := OVar "CMAKE_CURRENT_LIST_DIR" (Some [package_dir])).
    destruct (sexec n (TOp o t) b) as [[d1 f1]|] eqn:Ex; [|discriminate]. intros [= <-].
    assert (Uo : no_up (TOp o t) = true) by exact U.
    destruct (IH (TOp o t) _ _ _ Uo P Ex) as (U1 & P1 & fl & _ & R).
    split; [now rewrite no_up_app, U1|]. split; [now apply provided_app|].
    exists Next. split; [reflexivity|]. eapply runs_package; eauto.
    - cbn in E5. now apply negb_true_iff.
    - rewrite tapp_assoc. cbn [tapp]. apply runs_nil. }
  destruct (mem name built_in) eqn:E4.
  { intros Es. destruct (scommand_sound t name _ d P Es) as (R & U1 & P1). split; [|split]; auto.
    exists Next. split; [reflexivity|]. eapply runs_simple; eauto; [|apply runs_nil].
    unfold simple. rewrite E4. unfold mem. cbn [existsb]. now rewrite E0, E1, E2. }
  assert (Us : user name = true).
  { unfold user. rewrite E4. unfold mem. cbn [existsb]. rewrite E0, E1, E2.
    destruct (String.eqb name "find_package") eqn:E5; auto. apply String.eqb_eq in E5; subst. discriminate E4. }
  destruct (function_in t name) as [fd|] eqn:Ef; [|discriminate].
  pose proof (function_sound t st name fd Ef) as Hf.
  destruct (f_macro fd) eqn:Em.
  - destruct (sexec n t _) as [[d1 [| |]]|] eqn:Ex; try discriminate. intros [= <-].
    destruct (IH _ _ _ _ U P Ex) as (U1 & P1 & fl & Hfl & R). cbn in Hfl. subst fl. split; [|split]; auto.
    exists Next. split; [reflexivity|]. eapply runs_macro; eauto. apply runs_nil.
  - cbv zeta. set (l := enter_function (f_params fd) (expand_all h (lookup (apply t st)) args)).
    assert (Pl : Forall op_provided l).
    { unfold l, enter_function. apply Forall_app. split; [apply map_provided; intros; exact I|repeat constructor]. }
    assert (Ul : forallb (fun o => negb (goes_up o)) l = true).
    { unfold l, enter_function. rewrite forallb_app. apply andb_true_intro. split; [|reflexivity].
      apply forallb_forall. intros o I. apply in_map_iff in I as (q & <- & _). reflexivity. }
    destruct (sexec n (pushes l t) (f_body fd)) as [[d1 f1]|] eqn:Ex; [|discriminate].
    intros Es.
    assert (Up : no_up (pushes l t) = true) by (rewrite no_up_pushes, Ul; auto).
    destruct (IH _ _ _ _ Up (provided_pushes l t Pl P) Ex) as (U1 & P1 & fl & _ & R).
    destruct (scope_described d1 l t d U U1 P1 P Pl Ul Es) as (A & B & C & D').
    split; [|split]; auto. exists Next. split; [reflexivity|].
    eapply runs_function; eauto; fold l; [rewrite D'; exact R|rewrite C; apply runs_nil].
Qed.

Lemma then_described n t c d rest r f :
  (forall t l d f, no_up t = true -> provided h t -> sexec n t l = Some (d, f) -> described t l d f) ->
  no_up t = true -> provided h t ->
  described t [c] d Falls ->
  match sexec n (tapp d t) rest with Some (d', f) => Some (tapp d' d, f) | None => None end = Some (r, f) ->
  described t (c :: rest) r f.
Proof.
  intros IH U P (U1 & P1 & fl & Hfl & R) H. cbn in Hfl. subst fl.
  destruct (sexec n (tapp d t) rest) as [[d' f']|] eqn:E; [|discriminate]. injection H as <- <-.
  assert (U2 : no_up (tapp d t) = true) by (rewrite no_up_app, U1; auto).
  destruct (IH _ _ _ _ U2 (provided_app d t P1 P) E) as (U3 & P3 & fl & Hfl & R').
  split; [rewrite no_up_app, U3; auto|]. split; [now apply provided_app|].
  exists fl. split; auto. change (c :: rest) with ([c] ++ rest). rewrite tapp_assoc. eapply runs_app; eauto.
Qed.
Lemma apply_merge b x y t s : apply (tapp (smerge b x y) t) s = if b then apply (tapp x t) s else apply (tapp y t) s.
Proof. cbn. rewrite !apply_tapp. now destruct b. Qed.

Lemma sexec_sound n : forall t l d f, no_up t = true -> provided h t -> sexec n t l = Some (d, f) -> described t l d f.
Proof.
  induction n as [|n IH]; [discriminate|]. intros t l d f U P. cbn [sexec].
  destruct l as [|[name args|[|[c b] bs] e|args b|m x ps b] rest].
  - intros [= <- <-]. repeat split. exists Next. split; [reflexivity|apply runs_nil].
  - destruct (String.eqb name "return") eqn:Er.
    { apply String.eqb_eq in Er; subst. intros [= <- <-]. repeat split. exists Returned. split; [reflexivity|]. apply runs_return. }
    destruct (known t (flat_map refs args)) eqn:K; [|discriminate].
    assert (E : expand_all h (fun x => i_val (var_info k t x)) args = expand_all h (lookup (apply t st)) args).
    { apply expand_all_agree. intros x I. symmetry. now apply (known_sound t _ x K). }
    rewrite E. destruct (sdo (sexec n) t name _) as [d1|] eqn:Ed; [|discriminate].
    pose proof (sdo_sound n t name args d1 IH Er U P Ed) as D. cbn [sthen falls]. intros H. eapply then_described; eauto.
  - destruct (sexec n t e) as [[d1 [| |]]|] eqn:Ee; try discriminate. cbn [sthen]. intros H.
    destruct (IH _ _ _ _ U P Ee) as (U1 & P1 & fl & Hfl & R). cbn in Hfl. subst fl.
    eapply then_described; eauto. split; [|split]; auto. exists Next. split; [reflexivity|].
    eapply runs_else; eauto. apply runs_nil.
  - destruct (known t (flat_map refs c) && known t (names_of (words h (fun x => i_val (var_info k t x)) c))) eqn:K; [|discriminate].
    apply andb_prop in K as [K K'].
    assert (C : condition h (fun x => i_val (var_info k t x)) c = condition h (lookup (apply t st)) c).
    { apply condition_agree; intros x I; symmetry; [now apply (known_sound t _ x K)|now apply (known_sound t _ x K')]. }
    rewrite C. destruct (condition h (lookup (apply t st)) c) as [v|] eqn:Ec; [|discriminate].
    destruct (sexec n t b) as [[d1 [| |]]|] eqn:Eb; try discriminate.
    + destruct (sexec n t [If bs e]) as [[d2 [| |]]|] eqn:Ee; try discriminate. cbn [sthen]. intros H.
      destruct (IH _ _ _ _ U P Eb) as (U1 & P1 & fl1 & Hf1 & R1). cbn in Hf1. subst fl1.
      destruct (IH _ _ _ _ U P Ee) as (U2 & P2 & fl2 & Hf2 & R2). cbn in Hf2. subst fl2.
      eapply then_described; eauto. split; [cbn; now rewrite U1, U2|]. split; [cbn; auto|].
      exists Next. split; [reflexivity|]. rewrite apply_merge. destruct v.
      * eapply runs_if_true; eauto. apply runs_nil.
      * now apply runs_if_false.
    + destruct (sexec n t (If bs e :: rest)) as [[d2 f2]|] eqn:Ee; [|discriminate]. intros [= <- <-].
      destruct (IH _ _ _ _ U P Eb) as (U1 & P1 & fl1 & Hf1 & R1). cbn in Hf1. subst fl1.
      destruct (IH _ _ _ _ U P Ee) as (U2 & P2 & fl2 & Hf2 & R2).
      split; [cbn; now rewrite U1, U2|]. split; [cbn; auto|].
      exists (if v then Returned else fl2). split; [exact I|]. rewrite apply_merge. destruct v.
      * eapply runs_if_leave; eauto. discriminate.
      * now apply runs_if_false.
  - discriminate.
  - cbn [sthen]. intros H. eapply then_described; eauto. repeat split; auto.
    exists Next. split; [reflexivity|]. apply runs_define. apply runs_nil.
Qed.
Theorem sym_sound n l d f : sexec n TNil l = Some (d, f) ->
  exists fl, runs h files st l (Done (apply d st) fl).
Proof.
  intros E. destruct (sexec_sound n TNil l d f eq_refl I E) as (_ & _ & fl & _ & R).
  exists fl. rewrite apply_tapp in R. exact R.
Qed.
End Symbolic.
