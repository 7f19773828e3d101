(** Facts about EnumScan.v. *)
From Coq Require Import ZArith NArith Bool List Ascii String Lia ZifyBool ZifyNat ZifyN.
From Verif Require Import Outcome Words Types EnumFacts EnumScan.
Import ListNotations.
Open Scope N_scope.

(** * Texts *)

Definition lacks (c : ascii) (s : text) : Prop := ~ In c s.

Lemma is_true c d : is c d = true <-> c = d.
Proof. unfold is. apply Ascii.eqb_eq. Qed.

Lemma is_refl c : is c c = true.
Proof. apply is_true. reflexivity. Qed.

Lemma is_false c d : c <> d -> is c d = false.
Proof. intros H. destruct (is c d) eqn:E; [|reflexivity]. apply is_true in E. contradiction. Qed.

Lemma lacks_cons c x s : lacks c (x :: s) <-> is x c = false /\ lacks c s.
Proof.
  unfold lacks. cbn [In]. split.
  - intros H. split; [apply is_false; intros ->|]; tauto.
  - intros [H1 H2] [->|H]; [rewrite is_refl in H1; discriminate|contradiction].
Qed.

Lemma lacks_app c s t : lacks c (s ++ t) <-> lacks c s /\ lacks c t.
Proof. unfold lacks. rewrite in_app_iff. tauto. Qed.

Lemma after_here c before s : lacks c before -> after c (before ++ c :: s) = Some s.
Proof.
  induction before as [|x before IH]; intros H; cbn.
  - rewrite is_refl. reflexivity.
  - apply lacks_cons in H as [H1 H2]. rewrite H1. auto.
Qed.

Lemma head_app s t : s <> [] -> head (s ++ t) = head s.
Proof. destruct s; [contradiction|reflexivity]. Qed.

Lemma less_succ k : N.of_nat (S k) < umax_base -> less (N.of_nat (S k)) = N.of_nat k.
Proof.
  unfold less, wsub. intros H. replace (1 mod umax_base) with 1 by reflexivity.
  replace (N.of_nat (S k) + (umax_base - 1)) with (N.of_nat k + 1 * umax_base) by (unfold umax_base in *; lia).
  rewrite N.mod_add by (unfold umax_base; lia). apply N.mod_small. lia.
Qed.

(** * Skipping over a text without separators *)

Lemma gcc_skip cur s t : lacks "," s -> lacks "}" s -> gcc_loop cur (s ++ t) = gcc_loop cur t.
Proof.
  induction s as [|x s IH]; intros H1 H2; [reflexivity|].
  apply lacks_cons in H1 as [H1 H1'], H2 as [H2 H2'].
  cbn [app gcc_loop]. rewrite H1, H2. auto.
Qed.

Lemma msvc_skip cur s t : lacks "," s -> msvc_loop cur (s ++ t) = msvc_loop cur t.
Proof.
  induction s as [|x s IH]; intros H1; [reflexivity|].
  apply lacks_cons in H1 as [H1 H1']. cbn [app msvc_loop]. rewrite H1. auto.
Qed.

Lemma clang12_skip cur s t : lacks "," s -> clang12_loop cur (s ++ t) = clang12_loop cur t.
Proof.
  induction s as [|x s IH]; intros H1; [reflexivity|].
  apply lacks_cons in H1 as [H1 H1']. cbn [app clang12_loop]. rewrite H1. auto.
Qed.

Lemma clang13_skip cur s t : lacks "," s -> clang13_loop false cur (s ++ t) = clang13_loop false cur t.
Proof.
  induction s as [|x s IH]; intros H1; [reflexivity|].
  apply lacks_cons in H1 as [H1 H1']. cbn [app clang13_loop]. rewrite H1. auto.
Qed.

Lemma clang13_close cur s t : lacks ")" s -> clang13_loop true cur (s ++ t) = clang13_loop true cur t.
Proof.
  induction s as [|x s IH]; intros H1; [reflexivity|].
  apply lacks_cons in H1 as [H1 H1']. cbn [app clang13_loop]. rewrite H1. auto.
Qed.

(** * The scan of what a compiler prints *)

Section Scan.
Context (d : dialect) (type_name : text) (number : N -> text) (name_of : N -> option text).

(** Numbers are digits (with 0x and a to f for MSVC): they begin with a digit and contain nothing else
    the scan looks for. *)
Definition numbers : Prop :=
  forall k, is_digit (head (number k)) = true /\ number k <> [] /\
    forall c, In c [","; "}"; ")"; ":"; "("]%char -> lacks c (number k).

(** An enumerator's name does not begin like an unnamed value. *)
Definition names : Prop :=
  forall k n, name_of k = Some n -> n <> [] /\ unnamed_at d (head n) = false.

(** The type's name has nothing in it that the scan looks for. *)
Definition plain_type : Prop :=
  forall c, In c [","; "}"; ")"]%char -> lacks c type_name.

Definition named_below (k : nat) (named : list N) : Prop :=
  forall j, j < N.of_nat k -> (In j named <-> name_of j <> None).

Context (Hnum : numbers) (Hnam : names).

Notation cast := (cast d type_name number).
Notation argument := (argument d type_name number name_of).
Notation more := (more d type_name number name_of).

Lemma cast_begins k : cast k <> [] /\ unnamed_at d (head (cast k)) = true.
Proof.
  destruct (Hnum k) as (H1 & H2 & _). destruct d; cbn; (split; [try discriminate|]); auto.
Qed.

Lemma argument_begins k :
  argument k <> [] /\
  unnamed_at d (head (argument k)) = match name_of k with Some _ => false | None => true end.
Proof.
  unfold argument. destruct (name_of k) as [n|] eqn:E; [apply (Hnam k n E)|apply cast_begins].
Qed.

Lemma argument_head k t :
  unnamed_at d (head (argument k ++ t)) = match name_of k with Some _ => false | None => true end.
Proof. destruct (argument_begins k) as [H1 H2]. rewrite head_app by exact H1. exact H2. Qed.

Lemma named_existsb k named : named_below (S k) named ->
  existsb (N.eqb (N.of_nat k)) named = match name_of (N.of_nat k) with Some _ => true | None => false end.
Proof.
  intros H. specialize (H (N.of_nat k) ltac:(lia)).
  destruct (existsb (N.eqb (N.of_nat k)) named) eqn:E.
  - apply existsb_exists in E as (x & Hin & Hx). apply N.eqb_eq in Hx. subst x.
    apply H in Hin. destruct (name_of (N.of_nat k)); [reflexivity|contradiction].
  - destruct (name_of (N.of_nat k)) eqn:E2; [|reflexivity]. exfalso.
    assert (Hin : In (N.of_nat k) named) by (apply H; discriminate).
    apply not_true_iff_false in E. apply E. apply existsb_exists. exists (N.of_nat k).
    split; [exact Hin|apply N.eqb_refl].
Qed.

Lemma named_below_less k named : named_below (S k) named -> named_below k named.
Proof. intros H j Hj. apply H. lia. Qed.

(** [found b]: how the loop reports the bound b. *)
Definition found (b : N) : option N := if b =? 0 then None else Some b.

Context (Hty : plain_type).

Lemma cast_lacks c k : In c [","; "}"]%char -> lacks c (cast k).
Proof.
  intros Hc. destruct (Hnum k) as (_ & _ & Hn).
  assert (H1 : lacks c (number k)) by (apply Hn; cbn in *; tauto).
  assert (H2 : lacks c type_name) by (apply Hty; cbn in *; tauto).
  assert (H3 : is "(" c = false /\ is ")" c = false) by (cbn in Hc; destruct Hc as [<-|[<-|[]]]; split; reflexivity).
  destruct H3. destruct d; cbn; try exact H1;
    (apply lacks_cons; split; [assumption|]; apply lacks_app; split; [exact H2|]; apply lacks_cons; split; assumption).
Qed.

Lemma loop_skip cur s t : lacks "," s -> lacks "}" s -> loop d cur (s ++ t) = loop d cur t.
Proof.
  intros H1 H2. destruct d; cbn [loop];
    [apply gcc_skip|apply clang12_skip|apply clang13_skip|apply msvc_skip]; assumption.
Qed.

(** After a separator comes a named argument. *)
Lemma loop_named cur s t : s <> [] -> unnamed_at d (head s) = false ->
  loop d cur (separator d ++ s ++ t) = Ok (Some cur).
Proof.
  intros H1 H2. destruct s as [|x s]; [contradiction|]. cbn [head] in H2.
  destruct d; cbn in H2; cbn; rewrite H2; reflexivity.
Qed.

(** After a separator comes an unnamed argument. *)
Lemma loop_cast cur k t : loop d cur (separator d ++ cast k ++ t) = loop d (less cur) t.
Proof.
  pose proof (cast_lacks ","%char k ltac:(cbn; tauto)) as L1.
  pose proof (cast_lacks "}"%char k ltac:(cbn; tauto)) as L2.
  destruct (Hnum k) as (N1 & N2 & N3).
  pose proof (Hty ")"%char ltac:(cbn; tauto)) as T.
  pose proof (loop_skip (less cur) (cast k) t L1 L2) as Hskip.
  destruct d; cbn in L1, L2, Hskip |- *; rewrite <- ?app_assoc in *; cbn in *.
  - exact Hskip.
  - rewrite head_app, N1 by exact N2. exact Hskip.
  - rewrite clang13_close by exact T. cbn.
    replace (is (head (number k ++ t)) ":") with false.
    + apply clang13_skip. apply N3. cbn. tauto.
    + rewrite head_app by exact N2. symmetry. apply is_false. intros E. rewrite E in N1. discriminate.
  - exact Hskip.
Qed.

Definition opening : ascii := match d with Gcc => "{" | _ => "<" end.
Definition closing : ascii := match d with Gcc => "}" | _ => ">" end.

Lemma loop_end cur behind : d = Gcc \/ lacks "," behind -> loop d cur (closing :: behind) = Ok None.
Proof.
  intros H. unfold closing. destruct d; cbn; [reflexivity| | |];
    destruct H as [H|H]; try discriminate; rewrite <- (app_nil_r behind);
    [rewrite clang12_skip|rewrite clang13_skip|rewrite msvc_skip]; auto.
Qed.

Lemma loop_more named behind : d = Gcc \/ lacks "," behind ->
  forall k, N.of_nat k < umax_base -> named_below k named ->
  loop d (N.of_nat k) (more k (closing :: behind)) = Ok (found (largest_named named k)).
Proof.
  intros Hend. induction k as [|k IH]; intros Hk Hb.
  - apply loop_end. exact Hend.
  - cbn [EnumScan.more largest_named]. rewrite (named_existsb k named Hb).
    unfold EnumScan.argument. destruct (name_of (N.of_nat k)) as [n|] eqn:E.
    + destruct (Hnam _ _ E) as [H1 H2]. rewrite loop_named by assumption.
      unfold found. destruct (N.eqb_spec (N.of_nat (S k)) 0); [lia|reflexivity].
    + rewrite loop_cast, less_succ by exact Hk. apply IH; [lia|]. apply named_below_less. exact Hb.
Qed.

Lemma round64_small c : 1 <= c -> c <= 1024 -> round64 c = round_up_pow2 c.
Proof.
  intros H1 H2. destruct (round_up_spec c H1 H2) as (k & Hr & _ & _ & Hk).
  unfold round64. replace (less c) with (c - 1).
  - change (to_umax (round_up_pow2 c) = round_up_pow2 c). rewrite Hr. apply N.mod_small.
    apply N.le_lt_trans with (2 ^ 10); [apply N.pow_le_mono_r; lia|reflexivity].
  - pose proof (less_succ (N.to_nat (c - 1))) as H. rewrite !Nat2N.inj_succ, N2Nat.id in H.
    replace (N.succ (c - 1)) with c in H by lia. rewrite H; [reflexivity|unfold umax_base; lia].
Qed.

(** The scan of the printed name finds what Types.v takes from the list of named values. *)
Lemma scan_ok before behind max named :
  (1 <= max <= 1024)%nat -> lacks opening before -> d = Gcc \/ lacks "," behind ->
  named_below max named ->
  scan d (N.of_nat max) (render d type_name number name_of before behind max) =
  Ok (max_enum_value named max).
Proof.
  intros Hmax Hbef Hend Hb. destruct max as [|m]; [lia|].
  unfold scan, render. replace (S m - 1)%nat with m by lia.
  fold opening closing. rewrite after_here by exact Hbef. rewrite argument_head.
  unfold max_enum_value, enum_bound. replace (N.of_nat (S m) - 1) with (N.of_nat m) by lia.
  replace (S m - 1)%nat with m by lia. rewrite (named_existsb m named Hb).
  unfold EnumScan.argument. destruct (name_of (N.of_nat m)) as [n|] eqn:E; [reflexivity|].
  rewrite less_succ by (unfold umax_base; lia).
  rewrite loop_skip by (apply cast_lacks; cbn; tauto).
  rewrite (loop_more named behind Hend m) by (try apply named_below_less; try (unfold umax_base; lia); exact Hb).
  pose proof (largest_named_le named m) as Hl. unfold found.
  destruct (N.eqb_spec (largest_named named m) 0) as [Hz|Hz]; [reflexivity|].
  rewrite round64_small by lia. reflexivity.
Qed.
End Scan.

(** * Types whose names contain what the scan looks for *)

(** Does a comma in the text, as the scan steps over it, lead to an opening parenthesis? *)
Definition next_open (d : dialect) (s : text) : bool :=
  match d with Msvc => is (head s) "(" | _ => is (head (tl s)) "(" end.
Fixpoint misleads (d : dialect) (s : text) : bool :=
  match s with
  | [] => false
  | c :: s => (is c "," && next_open d s) || misleads d s
  end.

(** The text that follows a type's name: a parenthesis and a number. *)
Definition follows (u : text) : Prop :=
  exists x y v, u = x :: y :: v /\ is x "(" = false /\ is y "(" = false.

Lemma gcc_stop cur s u : misleads Gcc s = false -> follows u ->
  gcc_loop cur (s ++ u) = gcc_loop cur u \/ gcc_loop cur (s ++ u) = Ok (Some cur) \/
  gcc_loop cur (s ++ u) = Ok None.
Proof.
  intros H (x & y & v & -> & Hx & Hy). induction s as [|c s IH]; [left; reflexivity|].
  cbn [misleads] in H. apply orb_false_iff in H as [H1 H2]. specialize (IH H2).
  cbn [app gcc_loop]. destruct (is c ",").
  - right. left. cbn [andb] in H1. unfold next_open in H1.
    destruct s as [|a [|b s]]; cbn in H1 |- *; [rewrite Hy|rewrite Hx|rewrite H1]; reflexivity.
  - destruct (is c "}"); [right; right; reflexivity|exact IH].
Qed.

Lemma msvc_stop cur s u : misleads Msvc s = false -> follows u ->
  msvc_loop cur (s ++ u) = msvc_loop cur u \/ msvc_loop cur (s ++ u) = Ok (Some cur).
Proof.
  intros H (x & y & v & -> & Hx & Hy). induction s as [|c s IH]; [left; reflexivity|].
  cbn [misleads] in H. apply orb_false_iff in H as [H1 H2]. specialize (IH H2).
  cbn [app msvc_loop]. destruct (is c ","); [|exact IH].
  right. cbn [andb] in H1. unfold next_open in H1.
  destruct s as [|a s]; cbn in H1 |- *; [rewrite Hx|rewrite H1]; reflexivity.
Qed.

Lemma clang13_stop cur s u : misleads Clang13 s = false -> follows u ->
  clang13_loop false cur (s ++ u) = clang13_loop false cur u \/
  clang13_loop false cur (s ++ u) = Ok (Some cur).
Proof.
  intros H (x & y & v & -> & Hx & Hy). induction s as [|c s IH]; [left; reflexivity|].
  cbn [misleads] in H. apply orb_false_iff in H as [H1 H2]. specialize (IH H2).
  cbn [app clang13_loop]. destruct (is c ","); [|exact IH].
  right. cbn [andb] in H1. unfold next_open in H1.
  destruct s as [|a [|b s]]; cbn in H1 |- *; [rewrite Hy|rewrite Hx|rewrite H1]; reflexivity.
Qed.

(** The search for the closing parenthesis: it may stop at the colon behind one in the type's name. *)
Lemma clang13_stop_close cur s t : misleads Clang13 s = false ->
  (is (head t) ":" = false) -> follows (")"%char :: t) ->
  clang13_loop true cur (s ++ ")"%char :: t) = clang13_loop false (less cur) t \/
  clang13_loop true cur (s ++ ")"%char :: t) = Ok (Some (less cur)) \/
  clang13_loop true cur (s ++ ")"%char :: t) = Ok (Some cur).
Proof.
  intros H Hc Hf. induction s as [|c s IH].
  - left. cbn. rewrite Hc. reflexivity.
  - cbn [misleads] in H. apply orb_false_iff in H as [H1 H2]. specialize (IH H2).
    cbn [app clang13_loop]. destruct (is c ")"); [|exact IH].
    destruct (is (head (s ++ ")"%char :: t)) ":"); [right; right; reflexivity|].
    destruct (clang13_stop (less cur) s _ H2 Hf) as [E|E]; rewrite E; [|right; left; reflexivity].
    left. reflexivity.
Qed.

Section Safe.
Context (d : dialect) (type_name : text) (number : N -> text) (name_of : N -> option text).
Context (Hnum : numbers number) (Hnam : names d name_of).
Context (Hmis : misleads d type_name = false).

Notation cast := (cast d type_name number).
Notation argument := (argument d type_name number name_of).
Notation more := (more d type_name number name_of).

Lemma number_follows k t : follows (")"%char :: number k ++ t).
Proof.
  destruct (Hnum k) as (H1 & H2 & H3). destruct (number k) as [|y v] eqn:E; [contradiction|].
  exists ")"%char, y, (v ++ t). split; [reflexivity|]. split; [reflexivity|].
  pose proof (H3 "("%char ltac:(cbn; tauto)) as L. apply lacks_cons in L as [L _]. exact L.
Qed.

Lemma number_head k t : is (head (number k ++ t)) ":" = false.
Proof.
  destruct (Hnum k) as (H1 & H2 & H3). rewrite head_app by exact H2. apply is_false.
  intros E. rewrite E in H1. discriminate.
Qed.

(** Behind the opening of a printed value the loop goes on to the next separator or stops. *)
Lemma loop_cast_safe cur k t :
  loop d cur (cast k ++ t) = loop d cur t \/ loop d cur (cast k ++ t) = Ok (Some cur) \/
  loop d cur (cast k ++ t) = Ok None.
Proof.
  destruct (Hnum k) as (N1 & N2 & N3).
  pose proof (N3 ","%char ltac:(cbn; tauto)) as L1. pose proof (N3 "}"%char ltac:(cbn; tauto)) as L2.
  pose proof (number_follows k t) as F.
  destruct d; cbn; rewrite <- ?app_assoc; cbn.
  - destruct (gcc_stop cur type_name _ Hmis F) as [E|[E|E]]; rewrite E; auto.
    left. cbn. apply gcc_skip; assumption.
  - left. apply clang12_skip. exact L1.
  - destruct (clang13_stop cur type_name _ Hmis F) as [E|E]; rewrite E; auto.
    left. cbn. apply clang13_skip. exact L1.
  - destruct (msvc_stop cur type_name _ Hmis F) as [E|E]; rewrite E; auto.
    left. cbn. apply msvc_skip. exact L1.
Qed.

Lemma loop_next_safe cur k t :
  let r := loop d cur (separator d ++ cast k ++ t) in
  r = loop d (less cur) t \/ r = Ok (Some (less cur)) \/ r = Ok (Some cur) \/ r = Ok None.
Proof.
  cbv zeta. pose proof (loop_cast_safe (less cur) k t) as S.
  destruct (Hnum k) as (N1 & N2 & N3).
  pose proof (N3 ","%char ltac:(cbn; tauto)) as L1.
  pose proof (number_follows k t) as F. pose proof (number_head k t) as Hh.
  destruct d; cbn in S |- *; rewrite <- ?app_assoc in *; cbn in *.
  - tauto.
  - rewrite head_app, N1 by exact N2. tauto.
  - destruct (clang13_stop_close cur type_name _ Hmis Hh F) as [E|[E|E]]; rewrite E; auto.
    rewrite clang13_skip by exact L1. auto.
  - tauto.
Qed.

Lemma loop_more_safe named behind : d = Gcc \/ lacks "," behind ->
  forall k, N.of_nat k < umax_base -> named_below name_of k named ->
  exists r, loop d (N.of_nat k) (more k (closing d :: behind)) = Ok r /\
    forall b, r = Some b -> largest_named named k <= b <= N.of_nat k.
Proof.
  intros Hend. induction k as [|k IH]; intros Hk Hb.
  - exists None. split; [apply loop_end; exact Hend|discriminate].
  - cbn [EnumScan.more largest_named]. rewrite (named_existsb name_of k named Hb).
    unfold EnumScan.argument. destruct (name_of (N.of_nat k)) as [n|] eqn:E.
    + destruct (Hnam _ _ E) as [H1 H2]. rewrite loop_named by assumption.
      exists (Some (N.of_nat (S k))). split; [reflexivity|]. intros b [= <-]. lia.
    + pose proof (largest_named_le named k) as Hl.
      destruct (IH ltac:(lia) (named_below_less _ _ _ Hb)) as (r & Hr & Hrb).
      destruct (loop_next_safe (N.of_nat (S k)) (N.of_nat k) (more k (closing d :: behind)))
        as [R|[R|[R|R]]]; rewrite R, ?less_succ by exact Hk.
      * rewrite Hr. exists r. split; [reflexivity|]. intros b Hbb. specialize (Hrb b Hbb). lia.
      * exists (Some (N.of_nat k)). split; [reflexivity|]. intros b [= <-]. lia.
      * exists (Some (N.of_nat (S k))). split; [reflexivity|]. intros b [= <-]. lia.
      * exists None. split; [reflexivity|discriminate].
Qed.

(** Whatever the type is called, the scan never reserves the value of a named enumerator. *)
Lemma scan_safe before behind max :
  (1 <= max <= 1024)%nat -> lacks (opening d) before -> d = Gcc \/ lacks "," behind ->
  exists r, scan d (N.of_nat max) (render d type_name number name_of before behind max) = Ok r /\
    (r = 0 \/ forall v, v < N.of_nat max -> name_of v <> None -> v < r).
Proof.
  intros Hmax Hbef Hend.
  set (named := filter (fun v => match name_of v with Some _ => true | None => false end)
                  (map N.of_nat (seq 0 max))).
  assert (Hb : named_below name_of max named).
  { intros j Hj. unfold named. rewrite filter_In, in_map_iff. split.
    - intros [_ H]. destruct (name_of j); [discriminate|discriminate H].
    - intros H. split; [|destruct (name_of j); [reflexivity|contradiction]].
      exists (N.to_nat j). split; [lia|]. apply in_seq. lia. }
  clearbody named. destruct max as [|m]; [lia|].
  unfold scan, render. replace (S m - 1)%nat with m by lia.
  fold (opening d) (closing d). rewrite after_here by exact Hbef.
  rewrite (argument_head d type_name number name_of Hnum Hnam).
  unfold EnumScan.argument. destruct (name_of (N.of_nat m)) as [n|] eqn:E; [exists 0; auto|].
  rewrite less_succ by (unfold umax_base; lia).
  assert (Fin : exists r, loop d (N.of_nat m) (cast (N.of_nat m) ++ more m (closing d :: behind)) = Ok r /\
    forall b, r = Some b -> largest_named named m <= b <= N.of_nat m).
  { pose proof (largest_named_le named m) as Hl.
    destruct (loop_more_safe named behind Hend m ltac:(unfold umax_base; lia) (named_below_less _ _ _ Hb)) as (r & Hr & Hrb).
    destruct (loop_cast_safe (N.of_nat m) (N.of_nat m) (more m (closing d :: behind))) as [R|[R|R]]; rewrite R.
    - exists r. auto.
    - exists (Some (N.of_nat m)). split; [reflexivity|]. intros b [= <-]. lia.
    - exists None. split; [reflexivity|discriminate]. }
  destruct Fin as ([b|] & Hr & Hrb); rewrite Hr; [|exists 0; auto].
  specialize (Hrb b eq_refl). destruct (N.eq_dec b 0) as [->|Hz].
  - exists 0. auto.
  - exists (round64 b). split; [reflexivity|]. right. intros v Hv Hn.
    assert (Hvm : v <> N.of_nat m) by (intros ->; contradiction).
    assert (Hin : In v named) by (apply Hb; assumption).
    pose proof (largest_named_bound named m v Hin ltac:(lia)) as Hlb.
    rewrite round64_small by lia.
    destruct (round_up_spec b ltac:(lia) ltac:(lia)) as (k & -> & Hk & _). lia.
Qed.
End Safe.

(** * A type name that misleads the scan *)

(** Decimal digits, for the examples. *)
Definition digit (n : N) : ascii := ascii_of_N (48 + n mod 10).
Definition decimal (n : N) : text :=
  if n <? 10 then [digit n]
  else if n <? 100 then [digit (n / 10); digit n]
  else [digit (n / 100); digit (n / 10); digit n].

Definition one_name (v : N) (s : string) (k : N) : option text := if k =? v then Some (txt s) else None.

(** template<class T, Color C> struct S { enum class F : unsigned char { a = 191 }; }; with a Color that
    has no enumerator 3: GCC prints S<int, (Color)3>::F, so every unnamed value counts twice.  Clang
    looks for the closing parenthesis first and counts only the first value twice: there the enumerator
    has to be 128. *)
Lemma scan_misled :
  scan Gcc 256 (render Gcc (txt "S<int, (Color)3>::F") decimal (one_name 191 "S<int, (Color)3>::F::a")
                 (txt "f(uintmax_t) [with auto ...Enumerators = ") (txt "; uintmax_t = long unsigned int]") 256)
    = Ok 128 /\
  scan Clang13 256 (render Clang13 (txt "S<int, (Color)3>::F") decimal (one_name 128 "S<int, (Color)3>::F::a")
                 (txt "f(const uintmax_t) [Enumerators = ") (txt "]") 256)
    = Ok 128 /\
  scan Msvc 256 (render Msvc (txt "S<int,(Color)0x3>::F") decimal (one_name 191 "S<int,(Color)0x3>::F::a")
                 (txt "f") (txt "(const unsigned __int64)") 256)
    = Ok 128.
Proof. vm_compute. repeat split. Qed.
