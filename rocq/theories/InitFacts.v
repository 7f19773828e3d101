(** Facts about the forms of initialisation. *)
From Coq Require Import ZArith NArith List Bool Lia ZifyBool.
From Verif Require Import Outcome Words WordsFacts Ints IntsFacts Types OptBytes Init InitSpec.
Import ListNotations.
Open Scope Z_scope.

Section Induction.
Variable P : uty -> Prop.
Hypothesis HI : forall it, P (UInt it).
Hypothesis HV : forall it, P (UVec it).
Hypothesis HS : forall it, P (UStr it).
Hypothesis HA : forall ms, Forall P ms -> P (UAgg ms).
Hypothesis HC : forall n t, P t -> P (UCArr n t).
Hypothesis HW : forall t, P t -> P (UWrap t).
Fixpoint uty_ind' (t : uty) : P t :=
  match t with
  | UInt it => HI it
  | UVec it => HV it
  | UStr it => HS it
  | UAgg ms => HA ms ((fix go (ms : list uty) : Forall P ms :=
      match ms with
      | [] => Forall_nil P
      | m :: ms => Forall_cons m (uty_ind' m) (go ms)
      end) ms)
  | UCArr n t => HC n t (uty_ind' t)
  | UWrap t => HW t (uty_ind' t)
  end.
End Induction.

(** With no arguments every member is value-initialised. *)
Lemma elide_nil : forall t, elide t [] = Some (zero t, []).
Proof.
  apply uty_ind'; intros; cbn [elide zero]; auto.
  - replace (elide_members elide ms []) with (Some (map zero ms, @nil arg)); [reflexivity|].
    induction H as [|m ms H _ IH]; [reflexivity|]. cbn [elide_members]. rewrite andb_false_r, H, <- IH. reflexivity.
  - replace (elide_elements (elide t) n []) with (Some (repeat (zero t) n, @nil arg)); [reflexivity|].
    induction n as [|n IH]; [reflexivity|]. cbn [elide_elements repeat]. rewrite H, <- IH. reflexivity.
Qed.
Lemma members_nil : forall ms, elide_members elide ms [] = Some (map zero ms, []).
Proof. intros ms. pose proof (elide_nil (UAgg ms)) as H. cbn [elide zero] in H. unfold seq in H. destruct (elide_members elide ms []) as [[vs r]|]; congruence. Qed.

(** One argument per member: braces and parentheses give the same. *)
Lemma member_agree : forall m a rest v w rest', conv m a = Val v -> elide m (a :: rest) = Some (w, rest') -> v = w /\ rest = rest'.
Proof.
  intros m a rest v w rest' Hc He. destruct m as [it|it|it|ms|n m|m]; destruct a as [s z|s|o]; cbn in Hc, He; try discriminate.
  - injection Hc as <-. destruct (fits s it); [injection He as <- <-; auto|discriminate].
  - injection Hc as <-. injection He as <- <-. auto.
  - destruct m; try discriminate. injection Hc as <-. injection He as <- <-. auto.
  - destruct m; discriminate.
  - destruct m; discriminate.
Qed.
Lemma members_agree : forall ms args vs ws rest, each_member ms args = Some vs -> elide_members elide ms args = Some (ws, rest) -> vs = ws.
Proof.
  induction ms as [|m ms IH]; intros [|a args] vs ws rest H1 H2; cbn [each_member] in H1.
  - cbn in H1, H2. congruence.
  - discriminate.
  - rewrite members_nil in H2. congruence.
  - destruct (conv m a) as [| |v] eqn:C; [discriminate|discriminate|].
    destruct (each_member ms args) as [vs'|] eqn:E; [|discriminate]. injection H1 as <-.
    cbn [elide_members] in H2. destruct (empty_class m && _)%bool; [discriminate|].
    destruct (elide m (a :: args)) as [[w r]|] eqn:L; [|discriminate].
    destruct (member_agree _ _ _ _ _ _ C L) as [-> ->].
    destruct (elide_members elide ms r) as [[ws' r']|] eqn:M; [|discriminate]. injection H2 as <- <-.
    f_equal. eapply IH; eauto.
Qed.

(** The cases of [both] for an aggregate. *)
Lemma aggregate_both : forall cxx20 ms args,
  (exists v, args = [AObj v] /\ both cxx20 (UAgg ms) args = (Val v, Val v)) \/
  ((forall v, args <> [AObj v]) /\ args <> [] /\ both cxx20 (UAgg ms) args =
    (if cxx20 then match each_member ms args with Some vs => Val (VSeq vs) | None => Bad end else Bad,
     match elide (UAgg ms) args with Some (v, []) => Val v | _ => Bad end)) \/
  (args = [] /\ both cxx20 (UAgg ms) args = (Val (zero (UAgg ms)), Val (zero (UAgg ms)))).
Proof.
  intros cxx20 ms [|a args]; [right; right; split; reflexivity|].
  destruct a as [s z|s|v]; [right; left|right; left|].
  - split; [congruence|split; [congruence|]]. destruct args; reflexivity.
  - split; [congruence|split; [congruence|]]. destruct args; reflexivity.
  - destruct args as [|b args]; [left; exists v; split; reflexivity|right; left].
    split; [congruence|split; [congruence|reflexivity]].
Qed.

Lemma aggregate_agree : forall cxx20 ms args v w, paren cxx20 (UAgg ms) args = Val v -> brace cxx20 (UAgg ms) args = Val w -> v = w.
Proof.
  intros cxx20 ms args v w. unfold paren, brace.
  destruct (aggregate_both cxx20 ms args) as [(u & _ & ->)|[(_ & _ & ->)|(_ & ->)]]; cbn [fst snd]; try congruence.
  destruct cxx20; [|discriminate]. destruct (each_member ms args) as [vs|] eqn:E; [|discriminate].
  cbn [elide]. destruct (elide_members elide ms args) as [[ws rest]|] eqn:L; [|discriminate]. cbn [seq].
  destruct rest; [|discriminate]. intros H1 H2. rewrite (members_agree _ _ _ _ _ E L) in H1. congruence.
Qed.
Lemma aggregate_not_hard : forall cxx20 ms args, paren cxx20 (UAgg ms) args <> Hard /\ brace cxx20 (UAgg ms) args <> Hard.
Proof.
  intros cxx20 ms args. unfold paren, brace.
  destruct (aggregate_both cxx20 ms args) as [(u & _ & ->)|[(_ & _ & ->)|(_ & ->)]]; cbn [fst snd]; try (split; discriminate).
  split.
  - destruct cxx20; [|discriminate]. destruct (each_member ms args); discriminate.
  - destruct (elide (UAgg ms) args) as [[x [|]]|]; discriminate.
Qed.
Lemma aggregate_paren17 : forall ms args, okay (paren false (UAgg ms) args) = true -> paren false (UAgg ms) args = brace false (UAgg ms) args.
Proof.
  intros ms args. unfold paren, brace.
  destruct (aggregate_both false ms args) as [(u & _ & ->)|[(_ & _ & ->)|(_ & ->)]]; cbn [fst snd]; try congruence. discriminate.
Qed.

(** The other classes without wrapper have no errors in bodies. *)
Ltac cases_args args := destruct args as [|[?s ?z|?s|?o] [|[?s ?z|?s|?o] [|? ?]]].
Lemma plain_not_hard : forall cxx20 t args, is_wrapper t = false -> paren cxx20 t args <> Hard /\ brace cxx20 t args <> Hard.
Proof.
  intros cxx20 t args H. destruct t as [it|it|it|ms|n t|t]; [| | |apply aggregate_not_hard| |discriminate]; unfold paren, brace.
  - cases_args args; cbn; split; try discriminate; destruct (fits _ _); discriminate.
  - cases_args args; cbn [both fst snd]; split; try discriminate; destruct (list_of _ _); discriminate.
  - cases_args args; cbn [both fst snd]; split; try discriminate; destruct (list_of _ _); discriminate.
  - destruct args; split; discriminate.
Qed.

Lemma must_val : forall i v, must i = Val v <-> i = Val v.
Proof. intros [| |w] v; cbn; split; congruence. Qed.

(** All the sites that compile make the same value. *)
Definition makes (cxx20 : bool) (t : uty) (args : list arg) (v : uval) : Prop :=
  by_constructor cxx20 t args = Val v \/ by_emplace cxx20 t args = Val v \/ by_value_or_construct cxx20 t args = Val v \/
  (exists a, args = [a] /\ by_assignment cxx20 t a = Val v).
Lemma makes_forms : forall cxx20 t args v, makes cxx20 t args v ->
  (aggregate t = true /\ brace cxx20 t args = Val v) \/ paren cxx20 t args = Val v.
Proof.
  intros cxx20 t args v [H|[H|[H|(a & -> & H)]]].
  - unfold by_constructor in H. destruct (initializable _ _ _); [|discriminate]. rewrite must_val in H.
    destruct (aggregate t); [left|right]; auto.
  - unfold by_emplace in H. rewrite must_val in H. unfold by_construct_at in H. destruct cxx20; [right; exact H|]. destruct (aggregate t); [left|right]; auto.
  - unfold by_value_or_construct in H. rewrite must_val in H. destruct (aggregate t); [left|right]; auto.
  - unfold by_assignment in H. destruct (_ && _)%bool; [|discriminate]. rewrite must_val in H. unfold by_construct_at in H.
    destruct cxx20; [right; exact H|]. destruct (aggregate t); [left|right]; auto.
Qed.
Lemma sites_agree : forall cxx20 t args v w, makes cxx20 t args v -> makes cxx20 t args w -> v = w.
Proof.
  intros cxx20 t args v w Hv Hw.
  destruct (makes_forms _ _ _ _ Hv) as [(A & B)|B], (makes_forms _ _ _ _ Hw) as [(A' & B')|B']; try congruence.
  - destruct t; try discriminate. symmetry. eapply aggregate_agree; eauto.
  - destruct t; try discriminate. eapply aggregate_agree; eauto.
Qed.

(** The feature list: C++17 exactly; in C++20 emplace exactly, constructors where they compile. *)
Lemma feature17 : forall t args v,
  (by_constructor false t args = Val v <-> feature_list_says false t args = Val v) /\
  (by_emplace false t args = Val v <-> feature_list_says false t args = Val v).
Proof.
  intros t args v. unfold by_emplace, by_construct_at.
  assert (E : feature_list_says false t args = if aggregate t then brace false t args else paren false t args)
    by (destruct t; reflexivity).
  rewrite E. split; [|apply must_val].
  unfold by_constructor, initializable, initializable_by. split.
  - destruct (if okay _ then true else _); [|discriminate]. apply must_val.
  - intros H. replace (if okay (paren false t args) then true else aggregate t && okay (brace false t args)) with true; [now apply must_val|].
    destruct (aggregate t); [rewrite H; cbn; now destruct (okay _)|rewrite H; reflexivity].
Qed.
Lemma feature20 : forall t args v,
  (by_constructor true t args = Val v -> feature_list_says true t args = Val v) /\
  (by_emplace true t args = Val v <-> feature_list_says true t args = Val v).
Proof.
  intros t args v. unfold feature_list_says. split; [|apply must_val].
  unfold by_constructor, initializable, initializable_by. destruct (okay (paren true t args)) eqn:O; [|discriminate].
  intros H. rewrite must_val in H. destruct (aggregate t) eqn:A; [|exact H]. destruct t; try discriminate.
  destruct (aggregate_not_hard true ms args) as [N _].
  destruct (paren true (UAgg ms) args) as [| |w] eqn:P; [discriminate|contradiction|]. f_equal. eapply aggregate_agree; eauto.
Qed.

(** Errors inside the constructor. *)
Lemma hard17 : forall t args, is_wrapper t = false -> by_constructor false t args <> Hard.
Proof.
  intros t args W. destruct (plain_not_hard false t args W) as [P B].
  unfold by_constructor, initializable, initializable_by. destruct (aggregate t) eqn:A.
  - destruct t; try discriminate. destruct (okay (paren false (UAgg ms) args)) eqn:O.
    + rewrite <- (aggregate_paren17 _ _ O). destruct (paren false (UAgg ms) args); [discriminate|contradiction|discriminate].
    + cbn. destruct (brace false (UAgg ms) args); [discriminate|contradiction|discriminate].
  - destruct (paren false t args); [discriminate|contradiction|discriminate].
Qed.
Lemma hard20 : forall t args, is_wrapper t = false ->
  (by_constructor true t args = Hard <-> aggregate t = true /\ paren true t args <> Bad /\ brace true t args = Bad).
Proof.
  intros t args W. destruct (plain_not_hard true t args W) as [P B].
  unfold by_constructor, initializable, initializable_by. split.
  - destruct (paren true t args) as [| |v]; cbn; [discriminate|contradiction|].
    destruct (aggregate t); [|discriminate]. destruct (brace true t args); [|contradiction|discriminate]. repeat split; discriminate.
  - intros (-> & Hp & ->). destruct (paren true t args); [contradiction|contradiction|reflexivity].
Qed.

(** std::array. *)
Lemma elide_ints : forall it n args, Forall (plain it) args -> (length args <= n)%nat ->
  elide_elements (elide (UInt it)) n args = Some (map (number it) args ++ repeat (VInt 0) (n - length args), []).
Proof.
  induction n as [|n IH]; intros args H L.
  - destruct args; [reflexivity|cbn in L; lia].
  - destruct H as [|a args (s & z & -> & F) H].
    + specialize (IH [] (Forall_nil _) ltac:(cbn; lia)). cbn [elide_elements]. rewrite elide_nil, IH.
      cbn [map app length zero]. now rewrite !Nat.sub_0_r.
    + specialize (IH args H ltac:(cbn in L; lia)). cbn [elide_elements].
      replace (elide (UInt it) (AInt s z :: args)) with (Some (VInt (wrap it z), args)) by (cbn; now rewrite F).
      rewrite IH. reflexivity.
Qed.
Lemma array_forms : forall it n args, Forall (plain it) args -> args <> [] -> (length args <= n)%nat ->
  let v := VSeq [VSeq (map (number it) args ++ repeat (VInt 0) (n - length args))] in
  by_constructor false (std_array it n) args = Val v /\ by_emplace false (std_array it n) args = Val v /\
  by_constructor true (std_array it n) args = Bad /\ by_emplace true (std_array it n) args = Hard /\
  by_value_or_construct true (std_array it n) args = Val v.
Proof.
  intros it n args H N L v. unfold by_constructor, initializable, initializable_by, by_emplace, by_construct_at, by_value_or_construct, paren, brace.
  assert (A : forall v, args <> [AObj v]) by (intros u ->; inversion H as [|? ? (s & z & E & _)]; discriminate).
  cbn [aggregate std_array].
  assert (B : forall c, both c (std_array it n) args = (Bad, Val v)).
  { intros c. unfold std_array. destruct (aggregate_both c [UCArr n (UInt it)] args) as [(u & E & _)|[(_ & _ & ->)|(E & _)]]; [now apply A in E| |contradiction].
    replace (elide (UAgg [UCArr n (UInt it)]) args) with (Some (v, @nil arg)).
    2: { change (elide (UAgg [UCArr n (UInt it)]) args) with
           (seq (match seq (elide_elements (elide (UInt it)) n args) with
                 | Some (v, args') => Some ([v], args') | None => None end)).
         now rewrite (elide_ints it n args H L). }
    f_equal. destruct c; [|reflexivity].
    destruct args as [|a args]; [contradiction|]. reflexivity. }
  unfold std_array in B. rewrite !B. cbn. auto.
Qed.

(** Wrappers. *)
Lemma wrapper_both : forall cxx20 t args, args <> [] -> (forall v, args <> [AObj v]) ->
  paren cxx20 (UWrap t) args = if initializable cxx20 t args then must (brace cxx20 t args)
    else match args with [a] => conv t a | _ => Bad end.
Proof.
  intros cxx20 t args N A. unfold initializable, paren, brace.
  destruct args as [|a args]; [contradiction|].
  destruct a as [s z|s|o]; [| |destruct args as [|b args]; [now specialize (A o)|]]; cbn [both]; destruct (both cxx20 t _) as [p b']; reflexivity.
Qed.
Lemma wrapper_copies : forall cxx20 t v, by_constructor cxx20 (UWrap t) [AObj v] = Val v /\ by_emplace cxx20 (UWrap t) [AObj v] = Val v.
Proof. intros [|] t v; split; reflexivity. Qed.
Lemma wrapper_constructor : forall cxx20 t args, args <> [] -> (forall v, args <> [AObj v]) ->
  by_constructor cxx20 (UWrap t) args = if initializable cxx20 t args then must (brace cxx20 t args)
    else match args with [a] => conv t a | _ => Bad end.
Proof.
  intros cxx20 t args N A. unfold by_constructor. cbn [aggregate].
  assert (E : brace cxx20 (UWrap t) args = paren cxx20 (UWrap t) args).
  { unfold brace, paren. destruct args as [|[s z|s|o] [|b args]]; cbn [both]; try reflexivity; destruct (both cxx20 t _); reflexivity. }
  unfold initializable, initializable_by. rewrite E. cbn [aggregate andb].
  rewrite (wrapper_both cxx20 t args N A). unfold initializable, initializable_by.
  destruct cxx20.
  - destruct (okay (paren true t args)).
    + destruct (brace true t args); reflexivity.
    + destruct args as [|a [|b args]]; try reflexivity. destruct (conv t a); reflexivity.
  - destruct (if okay (paren false t args) then true else aggregate t && okay (brace false t args)).
    + destruct (brace false t args); reflexivity.
    + destruct args as [|a [|b args]]; try reflexivity. destruct (conv t a); reflexivity.
Qed.
(** Around an aggregate a wrapper takes what the option itself would take. *)
Lemma wrapper_aggregate : forall cxx20 ms args, by_constructor cxx20 (UWrap (UAgg ms)) args = by_constructor cxx20 (UAgg ms) args.
Proof.
  intros cxx20 ms args.
  destruct args as [|a args]; [destruct cxx20; reflexivity|].
  destruct (aggregate_both cxx20 ms (a :: args)) as [(v & E & _)|[(A & N & _)|(E & _)]]; [|
    |discriminate].
  - injection E as -> ->. destruct cxx20; reflexivity.
  - rewrite wrapper_constructor by assumption. unfold by_constructor at 1. cbn [aggregate].
    destruct (initializable cxx20 (UAgg ms) (a :: args)); [reflexivity|]. destruct args as [|b args]; [|reflexivity].
    destruct a; reflexivity.
Qed.
Lemma wrapper_int : forall cxx20 d s z,
  by_constructor cxx20 (UWrap (UInt d)) [AInt s z] = (if fits s d then Val (VInt (wrap d z)) else Hard) /\
  by_constructor cxx20 (UInt d) [AInt s z] = Val (VInt (wrap d z)) /\
  implicitly cxx20 (UWrap (UInt d)) (AInt s z) = true.
Proof.
  intros cxx20 d s z. split; [|split].
  - rewrite wrapper_constructor by congruence. unfold initializable, initializable_by, paren, brace. cbn.
    destruct cxx20, (fits s d); reflexivity.
  - destruct cxx20; reflexivity.
  - unfold implicitly, initializable, initializable_by, paren, brace. cbn. destruct cxx20, (fits s d); reflexivity.
Qed.
Lemma wrapper_literal : forall cxx20 it s,
  by_constructor cxx20 (UWrap (UStr it)) [ALit s] = Val (VSeq (map VInt s)) /\
  implicitly cxx20 (UWrap (UStr it)) (ALit s) = false /\ by_assignment cxx20 (UWrap (UStr it)) (ALit s) = Bad /\
  implicitly cxx20 (UStr it) (ALit s) = true /\ by_assignment cxx20 (UStr it) (ALit s) = Val (VSeq (map VInt s)).
Proof. intros [|] it s; repeat split. Qed.
Lemma fits_wrap : forall s d z, wf_width (iw d) -> fits s d = true -> in_ity s z -> wrap d z = z.
Proof. intros s d z W F I. apply wrap_id; [exact W|]. unfold fits, in_ity in *. lia. Qed.

Lemma constructor_braces : forall cxx20 t args v, aggregate t = true ->
  by_constructor cxx20 t args = Val v -> reference_says cxx20 t args = Val v.
Proof.
  intros cxx20 t args v A. unfold by_constructor. rewrite A. destruct (initializable _ _ _); [|discriminate]. apply must_val.
Qed.
Lemma vector_parentheses : exists t args v w, forall cxx20,
  by_constructor cxx20 t args = Val v /\ reference_says cxx20 t args = Val w /\ v <> w.
Proof.
  exists (UVec {| iw := 4; isg := true |}), [AInt {| iw := 4; isg := true |} 3; AInt {| iw := 4; isg := true |} 1],
    (VSeq [VInt 1; VInt 1; VInt 1]), (VSeq [VInt 3; VInt 1]).
  intros [|]; repeat split; discriminate.
Qed.
Lemma wrapper_vector : exists t args v w, forall cxx20,
  by_constructor cxx20 t args = Val v /\ by_constructor cxx20 (UWrap t) args = Val w /\ v <> w.
Proof.
  exists (UVec {| iw := 4; isg := true |}), [AInt {| iw := 4; isg := true |} 3; AInt {| iw := 4; isg := true |} 1],
    (VSeq [VInt 1; VInt 1; VInt 1]), (VSeq [VInt 3; VInt 1]).
  intros [|]; repeat split; discriminate.
Qed.
Lemma wrapper_narrowing : exists d s z v, in_ity s z /\ in_ity d z /\ forall cxx20,
  by_constructor cxx20 (UInt d) [AInt s z] = Val v /\ implicitly cxx20 (UWrap (UInt d)) (AInt s z) = true /\
  by_constructor cxx20 (UWrap (UInt d)) [AInt s z] = Hard.
Proof.
  exists {| iw := 4; isg := false |}, {| iw := 4; isg := true |}, 1, (VInt 1).
  split; [vm_compute; split; discriminate|]. split; [vm_compute; split; discriminate|]. intros [|]; repeat split.
Qed.
Lemma returned_sentinel : forall it v vals b, wf_width (iw it) -> in_ity it v -> length b = iw it ->
  opt_construct (TSentinel it (v :: vals)) (int_encode it v) b = Verify.
Proof.
  intros it v vals b W I L. unfold opt_construct.
  assert (E : int_encode it v ++ skipn (length (int_encode it v)) b = int_encode it v).
  { unfold int_encode. rewrite le_encode_length, <- L, skipn_all, app_nil_r. reflexivity. }
  assert (S0 : splice 0 (int_encode it v) b = int_encode it v) by exact E.
  rewrite S0. unfold opt_has_value, max_level.
  replace (N.of_nat (length (v :: vals)) =? 0)%N with false by (cbn [length]; lia).
  cbn [get_level]. unfold sentinel_get. rewrite int_decode_encode by assumption. cbn [sentinel_get_impl].
  rewrite Z.eqb_refl. reflexivity.
Qed.

(** Assignment to an empty option is allowed exactly where the declaration option<T> x = a is. *)
Lemma assignment_implicit cxx20 t a : by_assignment cxx20 t a <> Bad <-> implicitly cxx20 t a = true.
Proof.
  assert (M : forall i, must i <> Bad) by (intros [| |v]; discriminate).
  assert (E : initializable cxx20 t [a] && assignable t a = implicitly cxx20 t a).
  { unfold implicitly, assignable, initializable, initializable_by.
    destruct t as [it|it|it|ms|n t|t], a as [s z|l|v]; try reflexivity. cbn. now destruct cxx20. }
  unfold by_assignment. rewrite E. destruct (implicitly cxx20 t a); split; auto; try contradiction; discriminate.
Qed.
