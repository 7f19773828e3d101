(** Proofs about the step filter. *)
From Coq Require Import Bool List Ascii String Lia.
From Verif Require Import PyText StepFilter StepFilterSpec.
Import ListNotations.

Lemma accepts_of a c : accepts a c = true <-> of_atom a c.
Proof.
  destruct a as [d|]; cbn.
  - apply Ascii.eqb_eq.
  - rewrite negb_true_iff, orb_false_iff, !Ascii.eqb_neq. reflexivity.
Qed.

Lemma language_cons a k ps s : language ((a, k) :: ps) s <->
  exists u v, s = u ++ v /\ times k (List.length u) /\ Forall (of_atom a) u /\ language ps v.
Proof.
  split.
  - intros H. inversion H; subst. eauto 10.
  - intros (u & v & -> & T & F & L). now constructor.
Qed.

Theorem matches_exact ps : forall s, matches ps s = true <-> language ps s.
Proof.
  induction ps as [|[a k] ps IH]; intros s.
  - cbn. destruct s; (split; [intros H; try discriminate; constructor|inversion 1; reflexivity]).
  - cbn [matches]. set (many := fix many s := matches ps s || match s with [] => false | c :: r => accepts a c && many r end).
    assert (M : forall s, many s = true <-> exists u v, s = u ++ v /\ Forall (of_atom a) u /\ language ps v).
    { induction s0 as [|c r IHs]; unfold many; fold many; rewrite orb_true_iff, IH.
      - split.
        + intros [H|H]; [|discriminate]. exists [], []. repeat split; [constructor|exact H].
        + intros (u & v & E & F & L). left. symmetry in E. apply app_eq_nil in E. destruct E as [_ ->]. exact L.
      - rewrite andb_true_iff, accepts_of, IHs. split.
        + intros [H|[A (u & v & -> & F & L)]]; [exists [], (c :: r); repeat split; [constructor|exact H]|].
          exists (c :: u), v. repeat split; [now constructor|exact L].
        + intros ([|d u] & v & E & F & L); cbn in E.
          * left. now rewrite E.
          * injection E as -> ->. right. inversion F; subst. split; [assumption|]. now exists u, v. }
    rewrite language_cons. destruct k; cbn [times].
    + destruct s as [|c r].
      * split; [discriminate|]. intros ([|d u] & v & E & T & _); cbn in *; discriminate.
      * rewrite andb_true_iff, accepts_of, IH. split.
        -- intros [A L]. exists [c], r. repeat split; [now repeat constructor|exact L].
        -- intros ([|d [|e u]] & v & E & T & F & L); cbn in *; try discriminate. injection E as -> ->. inversion F; subst. now split.
    + assert (X : (match s with c :: r => matches ps s || (accepts a c && matches ps r) | [] => matches ps s end) =
                  (matches ps s || match s with c :: r => accepts a c && matches ps r | [] => false end)) by (destruct s; [now rewrite orb_false_r|reflexivity]).
      rewrite X, orb_true_iff, IH. split.
      * intros [L|H]; [exists [], s; cbn; repeat split; [lia|constructor|exact L]|].
        destruct s as [|c r]; [discriminate|]. rewrite andb_true_iff, accepts_of, IH in H. destruct H as [A L].
        exists [c], r. cbn. repeat split; [lia|now repeat constructor|exact L].
      * intros ([|d [|e u]] & v & E & T & F & L); cbn in *; [left; now rewrite E| |lia].
        right. rewrite E. rewrite andb_true_iff, accepts_of, IH. inversion F; subst. now split.
    + rewrite M. split; intros (u & v & E & H); exists u, v; tauto.
    + destruct s as [|c r].
      * split; [discriminate|]. intros ([|d u] & v & E & T & _); cbn in *; [lia|discriminate].
      * rewrite andb_true_iff, accepts_of, M. split.
        -- intros [A (u & v & -> & F & L)]. exists (c :: u), v. cbn. repeat split; [lia|now constructor|exact L].
        -- intros ([|d u] & v & E & T & F & L); cbn in *; [lia|]. injection E as -> ->. inversion F; subst. split; [assumption|now exists u, v].
Qed.

Lemma special_in c : special c = true <-> In c (txt "^$\.*+?()[]{}|").
Proof.
  unfold special. rewrite existsb_exists. split.
  - intros (d & I & E). apply Ascii.eqb_eq in E. now subst.
  - intros I. exists c. split; [exact I|apply Ascii.eqb_refl].
Qed.
Lemma atom_writes c a : atom_of c = Some a <->
  [c] = match a with Lit d => [d] | Dot => txt "." end /\ match a with Lit d => ~ In d (txt "^$\.*+?()[]{}|") | Dot => True end.
Proof.
  unfold atom_of. destruct (Ascii.eqb c ".") eqn:D.
  - apply Ascii.eqb_eq in D. subst c. split.
    + intros [= <-]. now split.
    + intros [E N]. destruct a as [d|]; [|reflexivity]. injection E as <-. destruct N. apply special_in. reflexivity.
  - apply Ascii.eqb_neq in D. destruct (special c) eqn:S.
    + split; [discriminate|]. intros [E N]. destruct a as [d|]; [injection E as <-; destruct N; now apply special_in|].
      injection E as E. now destruct D.
    + split.
      * intros [= <-]. split; [reflexivity|]. rewrite <- special_in, S. discriminate.
      * intros [E N]. destruct a as [d|]; [now injection E as <-|]. injection E as E. now destruct D.
Qed.
Lemma count_writes q k : count_of q = Some k <->
  [q] = match k with Once => [] | Optional => txt "?" | Repeated => txt "*" | Positive => txt "+" end.
Proof.
  unfold count_of. destruct (Ascii.eqb q "?") eqn:A; [|destruct (Ascii.eqb q "*") eqn:B; [|destruct (Ascii.eqb q "+") eqn:C]];
    rewrite ?Ascii.eqb_eq, ?Ascii.eqb_neq in *; subst; destruct k; cbn; split; congruence.
Qed.
Lemma count_special q k : count_of q = Some k -> atom_of q = None.
Proof.
  unfold count_of. destruct (Ascii.eqb q "?") eqn:A; [|destruct (Ascii.eqb q "*") eqn:B; [|destruct (Ascii.eqb q "+") eqn:C; [|discriminate]]];
    rewrite ?Ascii.eqb_eq in *; subst; reflexivity.
Qed.
Lemma pieces_head c r ps : pieces (c :: r) = Some ps -> exists a, atom_of c = Some a.
Proof. cbn [pieces]. destruct (atom_of c); [eauto|discriminate]. Qed.

Lemma pieces_sound k : forall s, List.length s <= k -> forall ps, pieces s = Some ps -> flat_map writes ps = s /\ Forall proper ps.
Proof.
  induction k as [|k IH]; intros s L ps P; (destruct s as [|c r]; [cbn in P; injection P as <-; split; [reflexivity|constructor]|]); [cbn in L; lia|].
  cbn [pieces] in P. destruct (atom_of c) as [a|] eqn:A; [|discriminate]. apply atom_writes in A. destruct A as [A B]. cbn in L.
  destruct r as [|q r']; [injection P as <-; split; [cbn [flat_map]; unfold writes; cbn [fst snd]; rewrite <- A; reflexivity|constructor; [exact B|constructor]]|].
  destruct (count_of q) as [n|] eqn:Q.
  - apply count_writes in Q. destruct (pieces r') as [qs|] eqn:R; [|discriminate]. injection P as <-.
    cbn in L. destruct (IH r') with (ps := qs) as [E F]; [lia|exact R|]. split; [|constructor; [exact B|exact F]].
    cbn [flat_map]. unfold writes at 1. cbn [fst snd]. rewrite <- A, <- Q, E. reflexivity.
  - destruct (pieces (q :: r')) as [qs|] eqn:R; [|discriminate]. injection P as <-.
    destruct (IH (q :: r')) with (ps := qs) as [E F]; [lia|exact R|]. split; [|constructor; [exact B|exact F]].
    cbn [flat_map]. unfold writes at 1. cbn [fst snd]. rewrite <- A, E. reflexivity.
Qed.
Lemma pieces_complete ps : Forall proper ps -> pieces (flat_map writes ps) = Some ps.
Proof.
  induction 1 as [|[a k] ps P F IH]; [reflexivity|]. cbn [flat_map]. unfold writes at 1. cbn [fst snd]. unfold proper in P. cbn [fst] in P.
  assert (A : exists c, match a with Lit d => [d] | Dot => txt "." end = [c]) by (destruct a; cbn; eauto). destruct A as [c A].
  assert (B : atom_of c = Some a) by (apply atom_writes; now split). rewrite A, <- !app_assoc. cbn [app].
  destruct (match k with Once => [] | Optional => txt "?" | Repeated => txt "*" | Positive => txt "+" end) as [|q qs] eqn:Q.
  - assert (k = Once) as -> by (destruct k; [reflexivity|discriminate..]). cbn [app pieces]. rewrite B.
    destruct (flat_map writes ps) as [|d r] eqn:W; [cbn in IH; now injection IH as <-|].
    destruct (pieces_head _ _ _ IH) as [x X]. destruct (count_of d) as [n|] eqn:C; [apply count_special in C; congruence|].
    now rewrite IH.
  - assert (qs = []) as -> by (destruct k; cbn in Q; congruence). symmetry in Q. apply count_writes in Q.
    cbn [app pieces]. rewrite B, Q, IH. reflexivity.
Qed.
Theorem pieces_exact s ps : pieces s = Some ps <-> flat_map writes ps = s /\ Forall proper ps.
Proof.
  split; [exact (pieces_sound (List.length s) s (le_n _) ps)|]. intros [<- F]. now apply pieces_complete.
Qed.

Lemma in_filter name : skipped name = matches (map (fun c => (Lit c, Once)) (txt "opt::") ++ [(Dot, Positive)]) name.
Proof.
  unfold skipped, skipped_by. change (functions source) with [(txt "opt::.+", txt "NoStepInto")]. cbn [existsb fst snd].
  change (same_text (txt "NoStepInto") (txt "NoStepInto")) with true. rewrite orb_false_r. reflexivity.
Qed.
Lemma literal_language w ps s : language (map (fun c => (Lit c, Once)) w ++ ps) s <-> exists r, s = w ++ r /\ language ps r.
Proof.
  revert s. induction w as [|c w IH]; intros s; cbn [map app].
  - split; [eauto|now intros (r & -> & L)].
  - rewrite language_cons. split.
    + intros (u & v & -> & T & F & L). apply IH in L. destruct L as (r & -> & L). cbn in T.
      destruct u as [|d [|]]; try discriminate. inversion F as [|? ? D]; subst. cbn in D. subst. now exists r.
    + intros (r & -> & L). exists [c], (w ++ r). repeat split; [now repeat constructor|]. apply IH. now exists r.
Qed.
Theorem skipped_exact name : skipped name = true <->
  exists rest, name = txt "opt::" ++ rest /\ rest <> [] /\ ~ In "010"%char rest /\ ~ In "013"%char rest.
Proof.
  rewrite in_filter, matches_exact, literal_language. split.
  - intros (r & -> & L). exists r. split; [reflexivity|]. apply language_cons in L. destruct L as (u & v & -> & T & F & L).
    inversion L; subst. rewrite app_nil_r. rewrite Forall_forall in F. split; [destruct u; [cbn in T; lia|discriminate]|].
    split; intros I; apply F in I; cbn in I; tauto.
  - intros (r & -> & N & A & B). exists r. split; [reflexivity|]. apply language_cons. exists r, []. rewrite app_nil_r.
    split; [reflexivity|]. split; [destruct r; [now destruct N|cbn; lia]|]. split; [|constructor].
    apply Forall_forall. intros c I. cbn. split; intros ->; contradiction.
Qed.

Lemma qualified_cons w r : r <> [] -> qualified (w :: r) = w ++ txt "::" ++ qualified r.
Proof. destruct r; [now intros []|reflexivity]. Qed.
Lemma qualified_parts ws : ws <> [] -> Forall part ws -> qualified ws <> [] /\ ~ In "010"%char (qualified ws) /\ ~ In "013"%char (qualified ws).
Proof.
  intros N F. induction F as [|w ws (A & B & i & t & -> & I & _) F IH]; [now destruct N|].
  assert (X : (i ++ t)%list <> []) by (destruct i; [now destruct I|discriminate]).
  destruct ws as [|x ws]; [cbn [qualified]; auto|]. rewrite qualified_cons by discriminate.
  destruct IH as (C & D & E); [discriminate|]. split; [destruct (i ++ t); [now destruct X|discriminate]|].
  split; intros H; apply in_app_iff in H; (destruct H as [H|H]; [contradiction|]); apply in_app_iff in H;
    (destruct H as [H|H]; [|contradiction]); cbn in H; repeat destruct H as [H|H]; try discriminate; contradiction.
Qed.
Lemma head_opt w rest : part w -> (exists x, (w ++ rest)%list = txt "opt::" ++ x)%list -> rest = [] \/ (exists y, rest = ":"%char :: y) -> w = txt "opt".
Proof.
  intros (_ & _ & i & t & -> & N & C & T) (x & E) R. cbn in E.
  assert (K : (i = txt "opt" /\ exists y, (t ++ rest = ":"%char :: y)%list)).
  { destruct i as [|a [|b [|c [|d i]]]]; cbn in E; try (now destruct N).
    - injection E as -> E. destruct T as [->|(y & ->)]; [destruct R as [->|(y & ->)]; discriminate|discriminate].
    - injection E as -> -> E. destruct T as [->|(y & ->)]; [destruct R as [->|(y & ->)]; discriminate|discriminate].
    - injection E as -> -> -> E. split; [reflexivity|eauto].
    - injection E as -> -> -> -> E. destruct C. cbn. tauto. }
  destruct K as [-> (y & K)]. destruct T as [->|(r & ->)]; [reflexivity|discriminate].
Qed.
Theorem functions_exact ws : Forall part ws ->
  (skipped (qualified ws) = true <-> exists rest, ws = txt "opt" :: rest /\ rest <> []).
Proof.
  intros F. rewrite skipped_exact. split.
  - intros (rest & E & N & _). destruct ws as [|w ws]; [discriminate|]. inversion F; subst. destruct ws as [|x ws].
    + cbn [qualified] in E. assert (w = txt "opt") as ->; [|discriminate].
      apply (head_opt w []); [assumption|exists rest; now rewrite app_nil_r|now left].
    + rewrite qualified_cons in E by discriminate. exists (x :: ws). split; [|discriminate]. f_equal.
      apply (head_opt w (txt "::" ++ qualified (x :: ws))); [assumption|now exists rest|right; cbn [txt list_ascii_of_string app]; eauto].
  - intros (rest & -> & N). inversion F; subst. rewrite qualified_cons by exact N. exists (qualified rest).
    split; [reflexivity|]. now apply qualified_parts.
Qed.

Theorem traits_skipped args f : skipped (qualified [txt "opt"; txt "option_traits<" ++ args; f]) = true <->
  ~ In "010"%char (args ++ f) /\ ~ In "013"%char (args ++ f).
Proof.
  rewrite skipped_exact. cbn [qualified].
  change (txt "opt" ++ txt "::" ++ (txt "option_traits<" ++ args) ++ txt "::" ++ f) with
    (txt "opt::" ++ (txt "option_traits<" ++ args) ++ txt "::" ++ f).
  assert (X : forall c, ~ In c (txt "option_traits<::") -> (In c ((txt "option_traits<" ++ args) ++ txt "::" ++ f) <-> In c (args ++ f))).
  { intros c N. rewrite !in_app_iff. cbn in N |- *. tauto. }
  assert (A : ~ In "010"%char (txt "option_traits<::")) by (cbn; intuition discriminate).
  assert (B : ~ In "013"%char (txt "option_traits<::")) by (cbn; intuition discriminate).
  apply X in A, B. split.
  - intros (r & E & N & C & D). apply app_inv_head in E. subst r. now rewrite A in C; rewrite B in D.
  - intros [C D]. eexists. split; [reflexivity|]. split; [discriminate|]. now rewrite A, B.
Qed.
