(** Proofs about result types. *)
From Coq Require Import List Bool Arith Lia.
From Verif Require Import Results ResultsSpec.
Import ListNotations.

(** Types as trees. *)
Section TyInd.
Context (P : ty -> Prop).
Context (HO : forall n, P (Obj n)) (HP : forall c k b, P b -> P (Opt (Q c k b)))
        (HT : forall l, Forall (fun t => P (q_base t)) l -> P (Tup l))
        (HV : forall l, Forall (fun t => P (q_base t)) l -> P (Var l))
        (HQ : forall c k b, P b -> P (Ptr (Q c k b))) (HR : forall c k b, P b -> P (Rw (Q c k b))).
Fixpoint ty_tree (b : ty) : P b :=
  let fix all (l : list qty) : Forall (fun t => P (q_base t)) l :=
    match l with
    | [] => Forall_nil _
    | Q c k x :: l' => Forall_cons (Q c k x) (ty_tree x) (all l')
    end in
  match b with
  | Obj n => HO n
  | Opt (Q c k x) => HP c k x (ty_tree x)
  | Tup l => HT l (all l)
  | Var l => HV l (all l)
  | Ptr (Q c k x) => HQ c k x (ty_tree x)
  | Rw (Q c k x) => HR c k x (ty_tree x)
  end.
End TyInd.

Lemma kind_eqb_eq : forall a b, kind_eqb a b = true <-> a = b.
Proof. intros [] []; cbn; split; congruence. Qed.

Lemma kind_eqb_refl : forall a, kind_eqb a a = true.
Proof. now intros []. Qed.

Lemma ty_eqb_refl : forall b, ty_eqb b b = true.
Proof.
  induction b using ty_tree; cbn; rewrite ?eqb_reflx, ?kind_eqb_refl, ?Nat.eqb_refl, ?IHb; auto.
  - induction H as [|[c k x] l' Hx _ IH]; cbn in *; [reflexivity|]. now rewrite eqb_reflx, kind_eqb_refl, Hx, IH.
  - induction H as [|[c k x] l' Hx _ IH]; cbn in *; [reflexivity|]. now rewrite eqb_reflx, kind_eqb_refl, Hx, IH.
Qed.

Lemma ty_eqb_eq : forall a b, ty_eqb a b = true -> a = b.
Proof.
  assert (N : forall c k x c' k' y, (forall b, ty_eqb x b = true -> x = b) ->
    Bool.eqb c c' && kind_eqb k k' && ty_eqb x y = true -> Q c k x = Q c' k' y).
  { intros c k x c' k' y H E. apply andb_true_iff in E as [E E2]. apply andb_true_iff in E as [E0 E1].
    apply eqb_prop in E0. apply kind_eqb_eq in E1. apply H in E2. now subst. }
  induction a using ty_tree; intros [m|[c' k' y]|m|m|[c' k' y]|[c' k' y]]; try discriminate; intros E.
  - cbn in E. apply Nat.eqb_eq in E. now subst.
  - f_equal. now apply N.
  - f_equal. revert m E. induction H as [|[c k x] l' Hx _ IH]; intros [|[c' k' y] m]; cbn in *; try discriminate; auto.
    intros E. apply andb_true_iff in E as [E E3]. f_equal; [now apply N|]. now apply IH.
  - f_equal. revert m E. induction H as [|[c k x] l' Hx _ IH]; intros [|[c' k' y] m]; cbn in *; try discriminate; auto.
    intros E. apply andb_true_iff in E as [E E3]. f_equal; [now apply N|]. now apply IH.
  - f_equal. now apply N.
  - f_equal. now apply N.
Qed.

Ltac cases :=
  cbn -[ty_eqb]; rewrite ?ty_eqb_refl; cbn -[ty_eqb]; rewrite ?ty_eqb_refl; cbn -[ty_eqb]; try reflexivity.

Ltac all_cases s T :=
  let c := fresh "c" in let k := fresh "k" in let b := fresh "b" in
  destruct s as [[] []]; destruct T as [c k b]; destruct c, k;
  repeat (cbn -[ty_eqb]; rewrite ?ty_eqb_refl); try reflexivity.

Lemma get_access : forall s T, get_of s T = Some (access s T).
Proof. intros s T. unfold get_of, returns, casts, binds. all_cases s T. Qed.

Lemma unchecked_access : forall s T, unchecked_of s T = Some (access s T).
Proof. exact get_access. Qed.

Lemma deref_access : forall s T, deref_of s T = Some (access s T).
Proof. intros s T. unfold deref_of. rewrite get_access. unfold returns, casts, binds. all_cases s T. Qed.

Lemma throw_access : forall s T, throw_of s T = Some (access s T).
Proof. intros s T. unfold throw_of. rewrite deref_access. unfold returns, binds. all_cases s T. Qed.

Lemma value_access : forall s T, value_of s T = Some (access s T).
Proof. intros s T. unfold value_of. rewrite throw_access. unfold returns, casts, binds. all_cases s T. Qed.

Lemma access_all : forall s T,
  get_of s T = Some (access s T) /\ unchecked_of s T = Some (access s T) /\ deref_of s T = Some (access s T) /\
  throw_of s T = Some (access s T) /\ value_of s T = Some (access s T).
Proof.
  intros s T. auto using get_access, unchecked_access, deref_access, throw_access, value_access.
Qed.

Lemma arrow_access : forall s T, arrow_of s T = Some (Q (negb (may_write s T)) Val (q_base T)).
Proof. intros s T. unfold arrow_of. rewrite get_access. all_cases s T. Qed.

Lemma passes_access : forall u s T, (u = TakeIf -> s_const s = false) ->
  passes u s T = Some (match u with Filter | TakeIf => access (lv s) T | _ => access s T end).
Proof.
  intros u s T H. destruct u; cbn [passes]; rewrite ?get_access, ?deref_access; try reflexivity.
  destruct s as [c r]. cbn in *. rewrite (H eq_refl). reflexivity.
Qed.

Lemma value_or_exact : forall s T, is_ref T = false ->
  value_or_value s T =
  if s_rv s && negb (s_const s) && q_const T then None else Some (bare T, obtained s T).
Proof.
  intros s T H. unfold value_or_value. rewrite !get_access. unfold inits, casts, binds.
  destruct T as [c k b]; destruct k; try discriminate H. destruct s as [[] []], c; repeat (cbn -[ty_eqb]; rewrite ?ty_eqb_refl); reflexivity.
Qed.

Lemma value_or_reference : forall s T, is_ref T = true ->
  value_or_value s T = if is_lref T || s_rv s && negb (s_const s) then Some (T, Bound) else None.
Proof.
  intros s T H. unfold value_or_value. rewrite !get_access. unfold inits, casts, binds.
  destruct T as [c k b]; destruct k; try discriminate H; destruct s as [[] []], c; repeat (cbn -[ty_eqb]; rewrite ?ty_eqb_refl); reflexivity.
Qed.

Lemma construct_exact : forall s T, is_ref T = false -> construct_value s T = Some (bare T, obtained s T).
Proof.
  intros s T H. unfold construct_value. rewrite !get_access. unfold inits, binds.
  destruct T as [c k b]; destruct k; try discriminate H. destruct s as [[] []], c; repeat (cbn -[ty_eqb]; rewrite ?ty_eqb_refl); reflexivity.
Qed.

Lemma value_or_const : exists s T,
  construct_value s T = Some (bare T, Copied) /\ value_or_value (lv s) T = Some (bare T, Copied) /\ value_or_value s T = None.
Proof. exists mrv, (Q true Val (Obj 0)). repeat split. Qed.

Lemma or_else_exact : forall s T,
  or_else_value s T = Some (option_of T, if s_rv s && negb (s_const s) then Moved else Copied).
Proof. intros s T. unfold or_else_value, inits. destruct s as [[] []]; cbn -[ty_eqb]; rewrite ty_eqb_refl; reflexivity. Qed.

Lemma regain : forall s T, inits T (access s T) = regained s T.
Proof. intros s T. unfold inits, binds, regained. all_cases s T. Qed.

Lemma filter_exact : forall s T,
  filter_value s T = match regained s T with Some h => Some (option_of T, h) | None => None end.
Proof. intros s T. unfold filter_value. rewrite get_access. cbn [bind]. now rewrite regain. Qed.

Lemma map_exact : forall R,
  map_value R = Some (option_of (if is_ref R then R else bare R), if is_ref R then Bound else Built).
Proof. intros [[] [] b]; unfold map_value, binds; repeat (cbn -[ty_eqb]; rewrite ?ty_eqb_refl); reflexivity. Qed.

Lemma zip_with_exact : forall R,
  zip_with_value R = Some (option_of R, if is_ref R then Bound else if q_const R then Copied else Moved).
Proof. intros [[] [] b]; unfold zip_with_value, inits, binds; repeat (cbn -[ty_eqb]; rewrite ?ty_eqb_refl); reflexivity. Qed.

Lemma zip_element_exact : forall s T,
  zip_element s T = match regained s T with Some h => Some (T, h) | None => None end.
Proof. intros s T. unfold zip_element. rewrite get_access. cbn [bind]. now rewrite regain. Qed.

Lemma zip_exact : forall l hs,
  map (fun p => regained (fst p) (snd p)) l = map Some hs ->
  zip_of l = Some (option_of (Q false Val (Tup (map snd l))), hs).
Proof.
  intros l hs H. unfold zip_of.
  enough (E : traverse (fun p => zip_element (fst p) (snd p)) l = Some (combine (map snd l) hs)).
  { rewrite E. cbn [bind]. assert (Hl : length (map snd l) = length hs).
    { rewrite map_length, <- (map_length (fun p => regained (fst p) (snd p)) l), H. apply map_length. }
    assert (F : forall (A B : Type) (x : list A) (y : list B), length x = length y -> map fst (combine x y) = x /\ map snd (combine x y) = y).
    { intros A B x. induction x as [|a x IH]; intros [|b y] E0; cbn in *; try discriminate; auto.
      injection E0 as E0. destruct (IH _ E0) as [-> ->]. auto. }
    destruct (F _ _ _ _ Hl) as [-> ->]. reflexivity. }
  revert hs H. induction l as [|[s T] l IH]; intros [|h hs] H; cbn in *; try discriminate; auto.
  injection H as H0 H1. rewrite zip_element_exact, H0. cbn. now rewrite (IH _ H1).
Qed.

Lemma zip_fails : forall l, In None (map (fun p => regained (fst p) (snd p)) l) -> zip_of l = None.
Proof.
  intros l H. unfold zip_of.
  enough (E : traverse (fun p => zip_element (fst p) (snd p)) l = None) by now rewrite E.
  induction l as [|[s T] l IH]; cbn in *; [contradiction|]. rewrite zip_element_exact. destruct H as [H|H].
  - now rewrite H.
  - rewrite (IH H). destruct (regained s T); reflexivity.
Qed.

Lemma tuple_get_access : forall s T E, tuple_get (access s T) E = access (element_self s T) E.
Proof. intros [[] []] [[] [] b] [[] [] b']; reflexivity. Qed.

Lemma unzip_element_exact : forall s T E,
  unzip_element (access s T) E =
  match regained (element_self s T) E with Some h => Some (option_of E, h) | None => None end.
Proof. intros s T E. unfold unzip_element. rewrite tuple_get_access, regain. now destruct (regained _ _). Qed.

Lemma unzip_exact : forall s c k l hs,
  map (regained (element_self s (Q c k (Tup l)))) l = map Some hs ->
  unzip_of s (Q c k (Tup l)) = Some (Q false Val (Tup (map option_of l)), hs).
Proof.
  intros s c k l hs. set (T := Q c k (Tup l)). intros H. unfold unzip_of. rewrite get_access. cbn [bind].
  change (q_base (access s T)) with (Tup l). cbn iota.
  enough (E : traverse (unzip_element (access s T)) l = Some (combine (map option_of l) hs)).
  { rewrite E. cbn [bind]. assert (Hl : length (map option_of l) = length hs).
    { rewrite map_length, <- (map_length (regained (element_self s T)) l), H. apply map_length. }
    assert (F : forall (A B : Type) (x : list A) (y : list B), length x = length y -> map fst (combine x y) = x /\ map snd (combine x y) = y).
    { intros A B x. induction x as [|a x IH]; intros [|b y] E0; cbn in *; try discriminate; auto.
      injection E0 as E0. destruct (IH _ E0) as [-> ->]. auto. }
    destruct (F _ _ _ _ Hl) as [-> ->]. reflexivity. }
  clearbody T. revert hs H. induction l as [|E l IH]; intros [|h hs] H; cbn [map traverse] in *; try discriminate; auto.
  injection H as H0 H1. rewrite unzip_element_exact, H0. cbn [bind]. rewrite (IH _ H1). reflexivity.
Qed.

(** at, get and the others. *)
Lemma wrap_same : forall a t, q_base t = q_base a -> q_const t = q_const a ->
  (q_kind t = LRef -> q_kind a = LRef) ->
  wrap t a = Some (option_of t, match q_kind t with Val => if q_const t then Copied else Moved | _ => Bound end).
Proof.
  intros [c k b] [c' k' b'] Hb Hc Hk. cbn in *. subst. unfold wrap, casts, inits, binds.
  destruct k', c; repeat (cbn -[ty_eqb]; rewrite ?ty_eqb_refl); try reflexivity; rewrite (Hk eq_refl); repeat (cbn -[ty_eqb]; rewrite ?ty_eqb_refl); reflexivity.
Qed.

Lemma copy_reference_self : forall a s b, copy_reference a (deduced (self_expr s b)) = result_kind s a.
Proof. intros [c [] b] [[] []] b'; reflexivity. Qed.

Lemma at_exact : forall s cont a,
  at_value s cont a =
  Some (option_of (result_kind s a), match q_kind a with Val => if q_const a then Copied else Moved | _ => Bound end).
Proof.
  intros s cont a. unfold at_value. rewrite copy_reference_self, wrap_same.
  - destruct a as [c [] b], s as [? []]; reflexivity.
  - destruct a as [c [] b]; reflexivity.
  - destruct a as [c [] b]; reflexivity.
  - destruct a as [c [] b], s as [? []]; cbn; congruence.
Qed.

Lemma get_index_exact : forall i s c k (l : list qty) E, nth_error l i = Some E ->
  get_index i s (Q c k (Tup l)) =
  Some (option_of (Q (negb (may_write (element_self s (Q c k (Tup l))) E)) (if s_rv s then RRef else LRef) (q_base E)), Bound).
Proof.
  intros i s c k l E H. set (T := Q c k (Tup l)). unfold get_index. rewrite get_access. cbn [bind].
  change (elements (q_base (access s T))) with l. rewrite H. cbn [bind].
  rewrite copy_reference_self, tuple_get_access, wrap_same.
  - destruct s as [[] []], c, k, E as [[] [] b]; reflexivity.
  - unfold access, result_kind. now destruct (as_rvalue _ _).
  - unfold access, result_kind. now destruct (as_rvalue _ _).
  - unfold access, result_kind. now destruct (as_rvalue _ _).
Qed.

Lemma get_index_owned : forall i s c k (l : list qty) E, nth_error l i = Some E -> k <> LRef -> is_lref E = false ->
  exists t, get_index i s (Q c k (Tup l)) = Some (option_of t, Bound) /\ movable_expr t = element_moves s (Q c k (Tup l)) E.
Proof.
  intros i s c k l E H Hk HE. eexists. split; [exact (get_index_exact i s c k l E H)|].
  destruct s as [[] []], c, k, E as [[] [] b]; try congruence; try discriminate HE; reflexivity.
Qed.

Lemma get_index_steals : exists i s T t,
  get_index i s T = Some (option_of t, Bound) /\ movable_expr t = true /\ is_lref T = true.
Proof.
  exists 0, mrv, (Q false LRef (Tup [Q false Val (Obj 0)])), (Q false RRef (Obj 0)). repeat split.
Qed.

Lemma get_index_steals_element : exists i s l E t,
  get_index i s (Q false Val (Tup l)) = Some (option_of t, Bound) /\ movable_expr t = true /\ nth_error l i = Some E /\ is_lref E = true.
Proof.
  exists 0, mrv, [Q false LRef (Obj 0)], (Q false LRef (Obj 0)), (Q false RRef (Obj 0)). repeat split.
Qed.

(** get<E>. *)
Lemma find_type_sound : forall E l i, find_type E l = Some i -> nth_error l i = Some E.
Proof.
  intros E l. induction l as [|[c k b] l IH]; intros i H; cbn in H; [discriminate|].
  destruct (Bool.eqb (q_const E) c && kind_eqb (q_kind E) k && ty_eqb (q_base E) b) eqn:F.
  - injection H as <-. apply andb_true_iff in F as [F F2]. apply andb_true_iff in F as [F0 F1].
    apply eqb_prop in F0. apply kind_eqb_eq in F1. apply ty_eqb_eq in F2. destruct E. cbn in *. now subst.
  - destruct (find_type E l) as [j|] eqn:G; cbn in H; [|discriminate]. injection H as <-. cbn. now apply IH.
Qed.

Lemma get_by_type_lvalue : forall E s c k l i, s_rv s = false -> find_type E l = Some i ->
  get_by_type E s (Q c k (Tup l)) = get_index i s (Q c k (Tup l)).
Proof.
  intros E s c k l i Hs Hf. unfold get_by_type. rewrite Hs. unfold get_index. rewrite get_access. cbn [bind].
  change (elements (q_base (access s (Q c k (Tup l))))) with l. rewrite Hf. reflexivity.
Qed.

Fixpoint depth (b : ty) : nat :=
  let fix most (l : list qty) : nat :=
    match l with
    | [] => 0
    | Q _ _ x :: l' => Nat.max (depth x) (most l')
    end in
  match b with
  | Obj _ => 0
  | Opt (Q _ _ x) | Ptr (Q _ _ x) | Rw (Q _ _ x) => S (depth x)
  | Tup l | Var l => S (most l)
  end.

Lemma element_depth : forall b E i, nth_error (elements b) i = Some E -> depth (q_base E) < depth b.
Proof.
  intros b E i H. destruct b as [n|t|l|l|t|t]; cbn [elements] in H; try (destruct i; discriminate H).
  cbn. apply le_n_S. revert i H. induction l as [|[c k x] l IH]; intros [|i] H; cbn in H; try discriminate.
  - injection H as <-. cbn. lia.
  - pose proof (IH _ H). lia.
Qed.

Lemma get_by_type_rvalue : forall E s T, s_rv s = true -> get_by_type E s T = None.
Proof.
  intros E s T Hs. unfold get_by_type. rewrite Hs. unfold casts. cbn [q_kind q_base].
  destruct (ty_eqb (Opt E) (q_base (self_expr s (Opt T))) && _) eqn:H; [|reflexivity]. cbn [bind].
  rewrite get_access. cbn [bind]. destruct (find_type E (elements (q_base (access s E)))) as [i|] eqn:F; [|reflexivity].
  exfalso. apply find_type_sound in F. apply element_depth in F. destruct E. cbn in F. lia.
Qed.

Lemma get_by_type_refuted : exists E s T i,
  nth_error (elements (q_base T)) i = Some E /\ get_index i s T <> None /\ get_by_type E s T = None.
Proof.
  exists (Q false Val (Obj 0)), mrv, (Q false Val (Tup [Q false Val (Obj 0); Q false Val (Obj 1)])), 0.
  repeat split. discriminate.
Qed.

Lemma variant_exact : forall i s (l : list qty) A, nth_error l i = Some A -> is_ref A = false ->
  variant_get i s l = Some (option_of (access s A), Bound).
Proof.
  intros i s l A H HA. unfold variant_get. rewrite H. cbn [bind]. rewrite copy_reference_self.
  rewrite wrap_same; destruct s as [[] []], A as [[] [] b]; try discriminate HA; reflexivity.
Qed.

Lemma lookup_exact : forall a, lookup_value a = Some (option_of a, match q_kind a with Val => if q_const a then Copied else Moved | _ => Bound end).
Proof. intros [[] [] b]; unfold lookup_value, inits, binds; repeat (cbn -[ty_eqb]; rewrite ?ty_eqb_refl); reflexivity. Qed.

(** flatten. *)
Lemma flatten_step : forall s m T, flatten_of s (nested (S m) T) = flatten_of s (nested m T).
Proof.
  intros s m T. change (nested (S m) T) with (Opt (Q false Val (nested m T))).
  destruct m; cbn [nested flatten_of]; rewrite get_access; cbn [bind]; destruct s as [[] []]; reflexivity.
Qed.

Lemma flatten_one : forall s T, plain T ->
  flatten_of s (Opt T) = match flat_how s T with Some h => Some (option_of (flat_type s T), h) | None => None end.
Proof.
  intros s [c k b] HT. cbn [flatten_of]. rewrite get_access. cbn [bind].
  assert (G : forall X Y : option (qty * how), match c, k, b with false, Val, Opt _ => X | _, _, _ => Y end = Y).
  { intros X Y. destruct b; try now destruct c, k. exfalso. eapply HT. reflexivity. }
  rewrite G. clear G. unfold inits, binds.
  destruct s as [[] []], c, k; repeat (cbn -[ty_eqb]; rewrite ?ty_eqb_refl); reflexivity.
Qed.

Lemma flatten_exact : forall n s T, plain T ->
  flatten_of s (nested n T) = match flat_how s T with Some h => Some (option_of (flat_type s T), h) | None => None end.
Proof. induction n as [|n IH]; intros s T HT; [now apply flatten_one|]. rewrite flatten_step. now apply IH. Qed.

Lemma flatten_documented : forall n s T, plain T ->
  (s_rv s = false -> q_kind T <> RRef /\ (q_kind T = Val -> s_const s = true -> q_const T = true)) ->
  exists h, flatten_of s (nested n T) = Some (option_of (flattened s T), h) /\
  (h = Moved -> may_move s T = true).
Proof.
  intros n s T HT H. rewrite flatten_exact by assumption. clear HT. unfold flat_how, flat_type, flattened, regained, obtained.
  destruct s as [[] []], T as [[] [] b]; cbn in *; try (eexists; split; [reflexivity|congruence]);
    destruct (H eq_refl) as [H1 H2]; try congruence; discriminate (H2 eq_refl eq_refl).
Qed.

Lemma flatten_const : forall n b, (forall U, b <> Opt U) -> flatten_of clv (nested n (Q false Val b)) = None.
Proof. intros n b H. rewrite flatten_exact; [reflexivity|]. intros c k U E. injection E as _ _ E. exact (H _ E). Qed.

Lemma flatten_rref : forall n s c b, (forall U, b <> Opt U) -> s_rv s = false -> flatten_of s (nested n (Q c RRef b)) = None.
Proof.
  intros n s c b H Hs. rewrite flatten_exact; [|intros c' k U E; injection E as _ _ E; exact (H _ E)].
  unfold flat_how. now rewrite Hs.
Qed.

Lemma flatten_stops : exists s U, flatten_of s (Opt (Q true Val (Opt U))) = Some (option_of (Q true Val (Opt U)), Copied).
Proof. exists mrv, (Q false Val (Obj 0)). reflexivity. Qed.

Lemma option_cast_exact : forall s T, option_cast_source s T =
  Some (access (if s_rv s && negb (s_const s) then s else {| s_const := true; s_rv := false |}) T).
Proof.
  intros s T. unfold option_cast_source. rewrite deref_access. unfold returns, casts, binds. all_cases s T.
Qed.

Lemma from_nullable_exact : forall c b, from_nullable_value (Q c Val b) = Some (option_of (Q c LRef b), Bound).
Proof. intros [] b; unfold from_nullable_value, inits, binds; repeat (cbn -[ty_eqb]; rewrite ?ty_eqb_refl); reflexivity. Qed.

Lemma make_option_exact : forall e,
  make_option_value e = Some (option_of (bare e), if movable_expr e then Moved else Copied).
Proof. intros [[] [] b]; unfold make_option_value, inits, binds; repeat (cbn -[ty_eqb]; rewrite ?ty_eqb_refl); reflexivity. Qed.

(** Pointers to members. *)
Lemma invoke_data_object : forall n c k M,
  invoke_data n M (Q c k (Obj n)) = Some (Q (c || q_const M) (match k with LRef => LRef | _ => RRef end) (q_base M)).
Proof. intros n c k M. unfold invoke_data. cbn. now rewrite Nat.eqb_refl. Qed.

Lemma invoke_data_pointer : forall n c k c' k' M b, b = Ptr (Q c' k' (Obj n)) \/ b = Rw (Q c' k' (Obj n)) ->
  invoke_data n M (Q c k b) = Some (Q (c' || q_const M) LRef (q_base M)).
Proof. intros n c k c' k' M b [-> | ->]; unfold invoke_data; cbn; now rewrite Nat.eqb_refl. Qed.

(** swap. *)
Section SwapFacts.
Context (mv : ty -> bool) (own : qty -> qty -> bool).

Lemma enable_swap_values : forall T U, ordinary own -> is_lref T = false \/ is_lref U = false -> enable_swap mv own T U = false.
Proof.
  intros [c k b] [c' k' b'] Ho H. unfold enable_swap. cbn [overload].
  assert (L : is_lref (add_rref (Q c k b)) = false \/ is_lref (add_rref (Q c' k' b')) = false).
  { destruct H as [H|H]; [left|right]; [destruct k|destruct k']; try discriminate H; reflexivity. }
  rewrite (Ho _ _ L). unfold std_swap.
  destruct L as [-> | ->]; rewrite ?andb_false_r; cbn; rewrite ?andb_false_r; reflexivity.
Qed.

Lemma swaps_options : forall T, ordinary own -> is_lref T = false ->
  own (Q false LRef (Opt T)) (Q false LRef (Opt T)) = false ->
  swaps mv own (Q false LRef (Opt T)) (Q false LRef (Opt T)) = mv (Opt T) /\
  (mv (Opt T) = true -> std_swap mv (Q false LRef (Opt T)) (Q false LRef (Opt T)) = true /\
                        opt_swap mv own (Q false LRef (Opt T)) (Q false LRef (Opt T)) = false).
Proof.
  intros T Ho HT H. unfold swaps, opt_swap. rewrite H. cbn [q_base].
  change (overload mv own (Opt T) (Opt T)) with (enable_swap mv own T T).
  rewrite enable_swap_values by auto. rewrite andb_false_r, xorb_false_r. cbn [orb].
  unfold std_swap. cbn [is_lref q_kind q_const q_base negb andb]. rewrite ty_eqb_refl. auto.
Qed.

Lemma swap_reference_ambiguous : forall b, (forall U, b <> Opt U) -> mv b = true -> mv (Opt (Q false LRef b)) = true ->
  own (Q false LRef (Opt (Q false LRef b))) (Q false LRef (Opt (Q false LRef b))) = false ->
  enable_swap mv own (Q false LRef b) (Q false LRef b) = true /\
  swaps mv own (Q false LRef (Opt (Q false LRef b))) (Q false LRef (Opt (Q false LRef b))) = false.
Proof.
  intros b Hb Hm Hmo Ho.
  assert (E : enable_swap mv own (Q false LRef b) (Q false LRef b) = true).
  { unfold enable_swap. cbn [overload]. unfold movable, std_swap. cbn -[ty_eqb overload]. rewrite ty_eqb_refl, Hm.
    assert (N : overload mv own b b = false) by (destruct b; try reflexivity; exfalso; eapply Hb; reflexivity).
    rewrite N. cbn. apply orb_true_r. }
  split; [exact E|]. unfold swaps, opt_swap. rewrite Ho. cbn [q_base].
  change (overload mv own (Opt (Q false LRef b)) (Opt (Q false LRef b))) with (enable_swap mv own (Q false LRef b) (Q false LRef b)).
  rewrite E. unfold std_swap. cbn -[ty_eqb]. rewrite ty_eqb_refl, Hmo. reflexivity.
Qed.

(** The overload for references, exactly. *)
Lemma enable_swap_references : forall b c, (forall U, b <> Opt U) ->
  enable_swap mv own (Q c LRef b) (Q c LRef b) = own (Q c LRef b) (Q c LRef b) || (negb c && mv b).
Proof.
  intros b c Hb. unfold enable_swap. cbn [overload]. unfold movable, std_swap. cbn -[ty_eqb overload]. rewrite ty_eqb_refl.
  assert (N : overload mv own b b = false) by (destruct b; try reflexivity; exfalso; eapply Hb; reflexivity).
  rewrite N. destruct c, (own _ _), (mv b); reflexivity.
Qed.

Lemma swaps_references : forall b c, (forall U, b <> Opt U) ->
  let o := Q false LRef (Opt (Q c LRef b)) in own o o = false ->
  swaps mv own o o = xorb (mv (Opt (Q c LRef b))) (own (Q c LRef b) (Q c LRef b) || (negb c && mv b)).
Proof.
  intros b c Hb o Ho. unfold swaps, opt_swap. rewrite Ho. subst o. cbn [q_base].
  change (overload mv own (Opt (Q c LRef b)) (Opt (Q c LRef b))) with (enable_swap mv own (Q c LRef b) (Q c LRef b)).
  rewrite enable_swap_references by exact Hb. unfold std_swap. cbn -[ty_eqb]. rewrite ty_eqb_refl. reflexivity.
Qed.
End SwapFacts.

Lemma documented_deref_differs : exists s T, deref_of s T <> Some (documented_deref s T).
Proof. exists mrv, (Q false LRef (Obj 0)). rewrite deref_access. discriminate. Qed.

Lemma inspect_moves : exists s T e, passes Inspect s T = Some e /\ inits (bare e) e = Some Moved.
Proof. exists mrv, (Q false Val (Obj 0)), (Q false RRef (Obj 0)). split; reflexivity. Qed.

Lemma flatten_differs : exists n s T, plain T /\ forall h, flatten_of s (nested n T) <> Some (option_of (flattened s T), h).
Proof. exists 1, mlv, (Q false RRef (Obj 0)). split; [intros c k U; discriminate|]. intros h. discriminate. Qed.

Lemma value_or_default_exact : forall T u, q_base u = q_base T ->
  value_or_default T u =
  match q_kind T with
  | Val => Some (bare T, Built)
  | LRef => if implb (q_const u) (q_const T) && (is_lref u || q_const T) then Some (T, Bound) else None
  | RRef => if implb (q_const u) (q_const T) then Some (T, Bound) else None
  end.
Proof.
  intros [c k b] [c' k' b'] H. cbn in H. subst b'. unfold value_or_default, casts, inits, binds.
  destruct c, k, c', k'; repeat (cbn -[ty_eqb]; rewrite ?ty_eqb_refl); reflexivity.
Qed.

Lemma value_or_default_steals : exists T u t h, is_lref u = true /\ value_or_default T u = Some (t, h) /\ movable_expr t = true /\ h = Bound.
Proof. exists (Q false RRef (Obj 0)), (Q false LRef (Obj 0)), (Q false RRef (Obj 0)), Bound. repeat split. Qed.

Lemma invoke_member_exact : forall n fc R c k b t,
  (b = Obj n /\ t = c) \/ (exists k', b = Ptr (Q t k' (Obj n)) \/ b = Rw (Q t k' (Obj n))) ->
  invoke_member n fc R (Q c k b) = if implb t fc then Some R else None.
Proof.
  intros n fc R c k b t [[-> ->]|[k' [-> | ->]]]; unfold invoke_member; cbn; rewrite Nat.eqb_refl; reflexivity.
Qed.
