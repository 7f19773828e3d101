(** Codegen.parse_expected reads what the file states. *)
From Coq Require Import PeanoNat NArith Bool List Ascii String Lia.
From Verif Require Import PyText Codegen ExamplesSpec ExamplesFacts CodegenRead.
Import ListNotations.
Open Scope nat_scope.
Open Scope list_scope.

(** * Headings *)

Lemma blank_cons c s : is_space c = true -> blank s -> blank (c :: s).
Proof. intros H B d [<-|K]; auto. Qed.

Lemma lstrip_at s d r : lstrip s = d :: r <-> is_space d = false /\ exists sp, blank sp /\ s = sp ++ d :: r.
Proof.
  split.
  - intros H. destruct (lstrip_spec s) as (a & E & B & F). split; [exact (F d r H)|]. exists a. rewrite H in E. auto.
  - intros (N & sp & B & ->). rewrite (lstrip_blank sp _ B). cbn. rewrite N. reflexivity.
Qed.

Lemma ends_spec s : ends s = true <-> exists sp rest, blank sp /\ s = sp ++ ":"%char :: rest.
Proof.
  unfold ends. split.
  - destruct (lstrip s) as [|c r] eqn:E; [discriminate|]. intros H. apply Ascii.eqb_eq in H as ->.
    apply lstrip_at in E as (_ & sp & B & E). eauto.
  - intros (sp & rest & B & ->). rewrite (lstrip_blank sp _ B). reflexivity.
Qed.

Lemma closes_cons c r g : closes (c :: r) g <->
  exists g0, g = c :: g0 /\ (closes r g0 \/ g0 = [] /\ exists r', r = "}"%char :: r' /\ ends r' = true).
Proof.
  split.
  - intros (N & sp & rest & B & E). destruct g as [|x g0]; [congruence|]. injection E as <- E. exists g0. split; [reflexivity|].
    destruct g0 as [|y g0].
    + right. split; [reflexivity|]. eexists. split; [exact E|]. apply ends_spec. eauto.
    + left. split; [discriminate|]. eauto.
  - intros (g0 & -> & [(N & sp & rest & B & ->)|(-> & r' & -> & K)]); (split; [discriminate|]).
    + exists sp, rest. split; [exact B|reflexivity].
    + apply ends_spec in K as (sp & rest & B & ->). exists sp, rest. split; [exact B|reflexivity].
Qed.

Lemma group_spec s :
  match group s with
  | Some g => closes s g /\ forall g', closes s g' -> List.length g' <= List.length g
  | None => forall g, ~ closes s g
  end.
Proof.
  induction s as [|c r IH]; cbn [group].
  - intros g (N & sp & rest & _ & E). destruct g; discriminate.
  - destruct (group r) as [g|].
    + destruct IH as (C & M). split; [apply closes_cons; eauto|]. intros g' K. apply closes_cons in K as (g0 & -> & [K|(-> & _)]).
      * cbn. specialize (M g0 K). lia.
      * cbn. lia.
    + destruct r as [|d r'].
      * intros g K. apply closes_cons in K as (g0 & -> & [K|(_ & r' & K & _)]); [exact (IH _ K)|discriminate].
      * destruct (Ascii.eqb_spec d "}"%char) as [->|N]; cbn [andb].
        -- destruct (ends r') eqn:E.
           ++ split; [apply closes_cons; exists []; split; [reflexivity|right; eauto]|].
              intros g' K. apply closes_cons in K as (g0 & -> & [K|(-> & _)]); [destruct (IH _ K)|cbn; lia].
           ++ intros g K. apply closes_cons in K as (g0 & -> & [K|(_ & r1 & K & F)]); [exact (IH _ K)|]. injection K as <-. congruence.
        -- intros g K. apply closes_cons in K as (g0 & -> & [K|(_ & r1 & K & F)]); [exact (IH _ K)|]. injection K as K _. congruence.
Qed.

Lemma tail_spec s :
  match header_tail s with
  | Some c => tail_fits s c /\ forall c', tail_fits s c' -> size c' <= size c
  | None => forall c, ~ tail_fits s c
  end.
Proof.
  assert (F : forall c, tail_fits s c -> match c with
    | None => exists r, lstrip s = ":"%char :: r
    | Some g => exists r, lstrip s = "{"%char :: r /\ closes r g end).
  { intros c (sp & B & K). destruct c as [g|].
    - destruct K as (s' & -> & K). exists s'. split; [|exact K]. apply lstrip_at. split; [reflexivity|]. eauto.
    - destruct K as (rest & ->). exists rest. apply lstrip_at. split; [reflexivity|]. eauto. }
  unfold header_tail. destruct (lstrip s) as [|d r] eqn:E.
  - intros c K. apply F in K. destruct c; destruct K as (r & K); [destruct K|]; discriminate.
  - pose proof E as E'. apply lstrip_at in E' as (_ & sp & B & E').
    destruct (Ascii.eqb_spec d "{"%char) as [->|N].
    + pose proof (group_spec r) as G. destruct (group r) as [g|].
      * destruct G as (C & M). split; [exists sp; split; [exact B|]; eauto|].
        intros c' K. apply F in K. destruct c' as [g'|]; [|destruct K as (? & K); discriminate].
        destruct K as (r' & K & C'). injection K as <-. exact (M g' C').
      * intros c K. apply F in K. destruct c as [g'|]; [|destruct K as (? & K); discriminate].
        destruct K as (r' & K & C'). injection K as <-. exact (G g' C').
    + destruct (Ascii.eqb_spec d ":"%char) as [->|N'].
      * split; [exists sp; split; [exact B|]; eauto|]. intros c' K. apply F in K. destruct c' as [g'|]; [|cbn; lia].
        destruct K as (r' & K & C'). discriminate.
      * intros c K. apply F in K. destruct c as [g'|]; [destruct K as (r' & K & _)|destruct K as (r' & K)]; congruence.
Qed.

Definition name_fits (s n : text) (c : option text) : Prop := n <> [] /\ exists t, s = n ++ t /\ tail_fits t c.

Lemma name_spec s :
  match name_and_tail s with
  | Some (n, c) => name_fits s n c /\ (forall n' c', name_fits s n' c' -> List.length n <= List.length n') /\
      (forall c', name_fits s n c' -> size c' <= size c)
  | None => forall n c, ~ name_fits s n c
  end.
Proof.
  assert (S : forall c r n k, name_fits (c :: r) n k <-> exists n0, n = c :: n0 /\ (n0 = [] /\ tail_fits r k \/ name_fits r n0 k)).
  { clear. intros c r n k. split.
    - intros (N & t & E & T). destruct n as [|x n0]; [congruence|]. injection E as <- E. exists n0. split; [reflexivity|].
      destruct n0 as [|y n0]; [left; cbn in E; subst; auto|right; split; [discriminate|eauto]].
    - intros (n0 & -> & [(-> & T)|(N & t & -> & T)]); (split; [discriminate|]); [exists r|exists t]; auto. }
  induction s as [|c r IH]; cbn [name_and_tail].
  - intros n c (N & t & E & _). destruct n; [congruence|discriminate].
  - pose proof (tail_spec r) as T. destruct (header_tail r) as [k|].
    + destruct T as (T & M). split; [apply S; exists []; auto|]. split.
      * intros n' c' K. apply S in K as (n0 & -> & _). cbn. lia.
      * intros c' K. apply S in K as (n0 & K & [(_ & K')|K']); injection K as <-; [exact (M c' K')|]. destruct K' as (K' & _). congruence.
    + destruct (name_and_tail r) as [(n, k)|].
      * destruct IH as (F & M & L). split; [apply S; eauto|]. split.
        -- intros n' c' K. apply S in K as (n0 & -> & [(_ & K)|K]); [destruct (T _ K)|]. cbn. specialize (M _ _ K). lia.
        -- intros c' K. apply S in K as (n0 & K & [(_ & K')|K']); injection K as <-; [destruct (T _ K')|exact (L _ K')].
      * intros n k K. apply S in K as (n0 & -> & [(_ & K)|K]); [exact (T _ K)|exact (IH _ _ K)].
Qed.

Lemma header_reads s :
  match header s with Some (n, c) => heading s n c | None => no_heading s end.
Proof.
  assert (S : forall r n c, heading_fits ("@"%char :: r) n c <-> name_fits r n c).
  { intros r n c. split; intros (N & t & E & T); (split; [exact N|]); exists t; (split; [|exact T]); [injection E as E; exact E|congruence]. }
  unfold header. destruct s as [|d r]; [intros n c (_ & t & E & _); discriminate|].
  destruct (Ascii.eqb_spec d "@"%char) as [->|N].
  - pose proof (name_spec r) as H. destruct (name_and_tail r) as [(n, c)|].
    + destruct H as (F & M & L). split; [apply S, F|]. split; intros *; rewrite S; [apply M|apply L].
    + intros n c. rewrite S. apply H.
  - intros n c (_ & t & E & _). congruence.
Qed.

Lemma tail_same t c c' : tail_fits t c -> tail_fits t c' -> size c = size c' -> c = c'.
Proof.
  intros (sp & B & H) (sp' & B' & H') E.
  assert (U : forall x y, is_space x = false -> is_space y = false -> forall u v, sp ++ x :: u = sp' ++ y :: v -> x = y /\ u = v).
  { clear H H' E. intros x y Nx Ny u v. revert sp' B'. induction sp as [|a sp IH]; intros [|b sp'] B' E.
    - injection E as <- <-. auto.
    - injection E as <- _. rewrite (B' _ (or_introl eq_refl)) in Nx. discriminate.
    - injection E as <- _. rewrite (B _ (or_introl eq_refl)) in Ny. discriminate.
    - injection E as <- E. apply (IH (fun c H => B c (or_intror H)) sp' (fun c H => B' c (or_intror H)) E). }
  destruct c as [g|], c' as [g'|]; try reflexivity.
  - destruct H as (s & -> & (N & p & r & Bp & ->)), H' as (s' & H' & (N' & p' & r' & Bp' & ->)).
    apply U in H' as (_ & H'); [|reflexivity|reflexivity]. cbn in E.
    f_equal. revert g' H' E N'. clear N. induction g as [|a g IH]; intros [|a' g'] H' E N'; try discriminate; [reflexivity|].
    injection H' as <- H'. f_equal. destruct g as [|x g]; [destruct g'; [reflexivity|discriminate]|].
    apply IH; [exact H'|cbn in *; lia|]. intros ->. discriminate.
  - destruct H as (s & -> & K), H' as (r & H'). apply U in H' as (H' & _); [discriminate|reflexivity|reflexivity].
  - destruct H as (r & ->), H' as (s & H' & _). apply U in H' as (H' & _); [discriminate|reflexivity|reflexivity].
Qed.

Lemma heading_one s n c n' c' : heading s n c -> heading s n' c' -> n = n' /\ c = c'.
Proof.
  intros ((N & t & E & T) & M & L) ((N' & t' & E' & T') & M' & L').
  assert (H : List.length n = List.length n').
  { apply Nat.le_antisymm; [apply (M n' c')|apply (M' n c)]; split; eauto. }
  assert (K : n = n' /\ t = t').
  { rewrite E in E'. injection E' as E'. clear -H E'. revert n' H E'. induction n as [|a n IH]; intros [|b n'] H E; try discriminate; [auto|].
    injection E as <- E. injection H as H. destruct (IH n' H E) as (<- & <-). auto. }
  destruct K as (<- & <-). split; [reflexivity|]. apply (tail_same t); try assumption.
  apply Nat.le_antisymm; [apply L'|apply L]; split; eauto.
Qed.

Lemma header_some s n c : header s = Some (n, c) <-> heading s n c.
Proof.
  pose proof (header_reads s) as H. split; [intros E; rewrite E in H; exact H|]. intros K.
  destruct (header s) as [(n', c')|]; [destruct (heading_one s n c n' c' K H) as (-> & ->); reflexivity|].
  destruct (H n c). apply K.
Qed.
Lemma header_none s : header s = None <-> no_heading s.
Proof.
  pose proof (header_reads s) as H. split; [intros E; rewrite E in H; exact H|]. intros K.
  destruct (header s) as [(n', c')|]; [|reflexivity]. destruct (K n' c'). apply H.
Qed.

(** * The lines of the file *)

Inductive entry : Type := Head (n : text) (c : option text) | Instr (e : text).
Definition entry_of (l : text) : option entry :=
  match strip (partition_after (txt "//$") l) with
  | [] => None
  | e => match header e with Some (n, c) => Some (Head n c) | None => Some (Instr e) end
  end.
Fixpoint entries (idx : nat) (ls : list text) : list (nat * entry) :=
  match ls with
  | [] => []
  | l :: ls => match entry_of l with Some e => (idx, e) :: entries (S idx) ls | None => entries (S idx) ls end
  end.
Fixpoint first_instrs (es : list (nat * entry)) : list (nat * text) :=
  match es with (i, Instr e) :: es => (i, e) :: first_instrs es | _ => [] end.
Fixpoint secs (es : list (nat * entry)) : list section :=
  match es with
  | [] => []
  | (i, Head n c) :: es => mksection i n (option_map lower c) (first_instrs es) :: secs es
  | (_, Instr _) :: es => secs es
  end.
Definition starts (es : list (nat * entry)) : bool := match es with (_, Instr _) :: _ => false | _ => true end.

Lemma parse_some ls : forall idx s, parse_from idx ls (Some s) =
  Some (mksection (line s) (name s) (conditions s) (rev (body s) ++ first_instrs (entries idx ls)) :: secs (entries idx ls)).
Proof.
  induction ls as [|l ls IH]; intros idx s; cbn [parse_from entries].
  - cbn. rewrite app_nil_r. reflexivity.
  - unfold entry_of. destruct (strip (partition_after (txt "//$") l)) as [|x e] eqn:E; [apply IH|].
    destruct (header (x :: e)) as [(n, c)|] eqn:Hd.
    + rewrite IH. cbn. rewrite app_nil_r. reflexivity.
    + rewrite IH. cbn. rewrite <- app_assoc. reflexivity.
Qed.
Lemma parse_none ls : forall idx, parse_from idx ls None = if starts (entries idx ls) then Some (secs (entries idx ls)) else None.
Proof.
  induction ls as [|l ls IH]; intros idx; cbn [parse_from entries]; [reflexivity|].
  unfold entry_of. destruct (strip (partition_after (txt "//$") l)) as [|x e] eqn:E; [apply IH|].
  destruct (header (x :: e)) as [(n, c)|] eqn:Hd; [|reflexivity]. rewrite parse_some. reflexivity.
Qed.

(** * The entries are what the file states *)

Lemma entry_spec l x : entry_of l = Some x <->
  exists e, beside l e /\ e <> [] /\ match x with Head n c => heading e n c | Instr e' => e' = e /\ no_heading e end.
Proof.
  unfold entry_of. change (txt "//$") with mark. split.
  - intros H. exists (strip (partition_after mark l)). destruct (strip (partition_after mark l)) as [|a e] eqn:E; [discriminate|].
    split; [|split; [discriminate|]].
    + apply beside_partition. split; [|congruence]. intros K. rewrite K in E. discriminate.
    + destruct (header (a :: e)) as [(n, c)|] eqn:Hd; injection H as <-; [apply header_some, Hd|split; [reflexivity|apply header_none, Hd]].
  - intros (e & B & N & H). apply beside_partition in B as (_ & <-). destruct e as [|a e]; [congruence|].
    destruct x as [n c|e'].
    + apply header_some in H. rewrite H. reflexivity.
    + destruct H as (-> & H). apply header_none in H. rewrite H. reflexivity.
Qed.

Lemma entries_in ls : forall idx i x, In (i, x) (entries idx ls) <-> exists j l, i = idx + j /\ nth_error ls j = Some l /\ entry_of l = Some x.
Proof.
  induction ls as [|l ls IH]; intros idx i x; cbn [entries].
  - split; [intros []|]. intros (j & l & _ & H & _). destruct j; discriminate.
  - split.
    + intros H. assert (K : entry_of l = Some x /\ i = idx \/ In (i, x) (entries (S idx) ls)).
      { destruct (entry_of l); [|auto]. destruct H as [[= <- <-]|H]; auto. }
      destruct K as [(K & ->)|K]; [exists 0, l; repeat split; [lia|exact K]|].
      apply IH in K as (j & l' & -> & A & B). exists (S j), l'. repeat split; [lia|exact A|exact B].
    + intros (j & l' & -> & A & B). destruct j as [|j].
      * injection A as ->. rewrite B, Nat.add_0_r. left. reflexivity.
      * assert (K : In (idx + S j, x) (entries (S idx) ls)) by (apply IH; exists j, l'; repeat split; [lia|exact A|exact B]).
        destruct (entry_of l); [right|]; exact K.
Qed.
Lemma entries_from idx ls i x : In (i, x) (entries idx ls) -> idx <= i.
Proof. intros H. apply entries_in in H as (j & _ & -> & _). lia. Qed.

Definition ordered (es : list (nat * entry)) : Prop := forall a i x b j y d, es = a ++ (i, x) :: b ++ (j, y) :: d -> i < j.
Lemma ordered_cons i x es : ordered ((i, x) :: es) <-> ordered es /\ forall j y, In (j, y) es -> i < j.
Proof.
  split.
  - intros H. split.
    + intros a i' x' b j y d ->. apply (H ((i, x) :: a) i' x' b j y d). reflexivity.
    + intros j y K. apply in_split in K as (b & d & ->). apply (H [] i x b j y d). reflexivity.
  - intros (H & K) [|p a] i' x' b j y d E.
    + injection E as <- <- ->. apply (K j y). apply in_or_app. right. left. reflexivity.
    + injection E as <- ->. apply (H a i' x' b j y d). reflexivity.
Qed.
Lemma entries_ordered ls : forall idx, ordered (entries idx ls).
Proof.
  induction ls as [|l ls IH]; intros idx; cbn [entries].
  - intros [|p a] i x b j y d E; discriminate.
  - destruct (entry_of l); [|apply IH]. apply ordered_cons. split; [apply IH|]. intros j y K. apply entries_from in K. lia.
Qed.

Lemma increasing_cons i l : increasing (i :: l) <-> increasing l /\ forall j, In j l -> i < j.
Proof.
  split.
  - intros H. split.
    + intros a i' b j d ->. apply (H (i :: a) i' b j d). reflexivity.
    + intros j K. apply in_split in K as (b & d & ->). apply (H [] i b j d). reflexivity.
  - intros (H & K) [|p a] i' b j d E.
    + injection E as <- ->. apply (K j). apply in_or_app. right. left. reflexivity.
    + injection E as <- ->. apply (H a i' b j d). reflexivity.
Qed.

(** * The sections of ordered entries *)

Lemma first_in es : ordered es -> forall i e, In (i, e) (first_instrs es) <->
  In (i, Instr e) es /\ forall j n c, In (j, Head n c) es -> i < j.
Proof.
  induction es as [|(k, x) es IH]; intros O i e; [split; [intros []|intros ([] & _)]|].
  apply ordered_cons in O as (O & F). cbn [first_instrs]. destruct x as [n c|e'].
  - split; [intros []|]. intros ([K|K] & H); [discriminate|]. specialize (F _ _ K). specialize (H k n c (or_introl eq_refl)). lia.
  - split.
    + intros [[= <- <-]|K].
      * split; [left; reflexivity|]. intros j n c [K|K]; [discriminate|]. apply (F _ _ K).
      * apply (IH O) in K as (K & H). split; [right; exact K|]. intros j n c [L|L]; [discriminate|exact (H j n c L)].
    + intros (K & H). destruct K as [K|K]; [injection K as -> ->; left; reflexivity|]. right. apply (IH O). split; [exact K|]. intros j n c L. apply (H j n c). right. exact L.
Qed.
Lemma first_increasing es : ordered es -> increasing (map fst (first_instrs es)).
Proof.
  induction es as [|(k, x) es IH]; intros O.
  - intros [|p a] i b j d E; discriminate.
  - apply ordered_cons in O as (O & F). cbn [first_instrs]. destruct x as [n c|e]; [intros [|p a] i b j d E; discriminate|].
    cbn [map fst]. apply increasing_cons. split; [exact (IH O)|]. intros j H. apply in_map_iff in H as ((j', e') & <- & H).
    apply (first_in es O) in H as (H & _). exact (F _ _ H).
Qed.
Lemma secs_in es : ordered es -> forall s, In s (secs es) -> exists c0, In (line s, Head (name s) c0) es /\ conditions s = option_map lower c0 /\
  increasing (map fst (body s)) /\ forall i e, In (i, e) (body s) <->
    In (i, Instr e) es /\ line s < i /\ forall j n c, In (j, Head n c) es -> ~ (line s < j < i).
Proof.
  induction es as [|(k, x) es IH]; intros O s; [intros []|].
  apply ordered_cons in O as (O & F). cbn [secs]. destruct x as [n c|e'].
  - intros [<-|H].
    + exists c. cbn [line name conditions body]. split; [left; reflexivity|]. split; [reflexivity|]. split; [apply first_increasing, O|].
      intros i e. rewrite (first_in es O). split.
      * intros (K & H). split; [right; exact K|]. split; [apply (F _ _ K)|]. intros j n' c' [[= <- <- <-]|L] M; [lia|].
        specialize (H _ _ _ L). lia.
      * intros ([K|K] & L & H); [discriminate|]. split; [exact K|]. intros j n' c' M. pose proof (F _ _ M). specialize (H j n' c' (or_intror M)).
        destruct (Nat.lt_ge_cases i j) as [A|A]; [exact A|]. exfalso. destruct (Nat.eq_dec i j) as [->|N]; [|apply H; lia].
        apply (in_split) in K as (a & b & ->). apply in_app_or in M as [M|[M|M]]; [|discriminate|].
        -- apply in_split in M as (a1 & b1 & ->). assert (j < j); [|lia]. apply (O a1 j (Head n' c') b1 j (Instr e) b). rewrite <- app_assoc. reflexivity.
        -- apply in_split in M as (a1 & b1 & ->). assert (j < j); [|lia]. apply (O a j (Instr e) a1 j (Head n' c') b1). reflexivity.
    + destruct (IH O s H) as (c0 & A & B & I & D). exists c0. split; [right; exact A|]. split; [exact B|]. split; [exact I|].
      intros i e. rewrite D. pose proof (F _ _ A). split.
      * intros (K & L & M). split; [right; exact K|]. split; [exact L|]. intros j n' c' [[= <- <- <-]|P]; [lia|apply (M j n' c' P)].
      * intros ([K|K] & L & M); [discriminate|]. split; [exact K|]. split; [exact L|]. intros j n' c' P. apply (M j n' c'). right. exact P.
  - intros H. destruct (IH O s H) as (c0 & A & B & I & D). exists c0. split; [right; exact A|]. split; [exact B|]. split; [exact I|].
    intros i e. rewrite D. pose proof (F _ _ A). split.
    + intros (K & L & M). split; [right; exact K|]. split; [exact L|]. intros j n' c' [P|P]; [discriminate|apply (M j n' c' P)].
    + intros ([K|K] & L & M); [injection K as <- <-; lia|]. split; [exact K|]. split; [exact L|]. intros j n' c' P. apply (M j n' c'). right. exact P.
Qed.
Lemma in_secs es i n c : In (i, Head n c) es -> exists s, In s (secs es) /\ line s = i /\ name s = n /\ conditions s = option_map lower c.
Proof.
  induction es as [|(k, x) es IH]; [intros []|]. intros [[= -> ->]|H].
  - eexists. cbn [secs]. split; [left; reflexivity|]. auto.
  - destruct (IH H) as (s & A & B). exists s. cbn [secs]. split; [|exact B]. destruct x; [right|]; exact A.
Qed.
Lemma secs_increasing es : ordered es -> increasing (map line (secs es)).
Proof.
  induction es as [|(k, x) es IH]; intros O.
  - intros [|p a] i b j d E; discriminate.
  - apply ordered_cons in O as (O & F). cbn [secs]. destruct x as [n c|e]; [|exact (IH O)].
    cbn [map line]. apply increasing_cons. split; [exact (IH O)|]. intros j H. apply in_map_iff in H as (s & <- & H).
    destruct (secs_in es O s H) as (c0 & A & _). exact (F _ _ A).
Qed.

(** * The file *)

Lemma head_at file i n c : In (i, Head n c) (entries 1 file) <-> heading_at file i n c.
Proof.
  rewrite entries_in. split.
  - intros (j & l & -> & A & B). apply entry_spec in B as (e & B & N & H). exists e. split; [|exact H]. exists j, l. auto.
  - intros (e & (j & l & -> & A & B & N) & H). exists j, l. split; [reflexivity|]. split; [exact A|]. apply entry_spec. eauto.
Qed.
Lemma instr_at file i e : In (i, Instr e) (entries 1 file) <-> instruction_at file i e.
Proof.
  rewrite entries_in. split.
  - intros (j & l & -> & A & B). apply entry_spec in B as (e' & B & N & <- & H). split; [|exact H]. exists j, l. auto.
  - intros ((j & l & -> & A & B & N) & H). exists j, l. split; [reflexivity|]. split; [exact A|]. apply entry_spec. exists e. auto.
Qed.

Lemma secs_state file : states file (secs (entries 1 file)).
Proof.
  pose proof (entries_ordered file 1) as O. repeat split.
  - intros (s & A & <- & <- & <-). destruct (secs_in _ O s A) as (c0 & B & -> & _). exists c0. split; [apply head_at, B|reflexivity].
  - intros (c0 & A & ->). apply head_at in A. exact (in_secs _ _ _ _ A).
  - destruct (secs_in _ O s H) as (c0 & A & B & I & D). apply (D i e). exact H0.
  - destruct (secs_in _ O s H) as (c0 & A & B & I & D). apply D in H0 as (H0 & _). apply instr_at in H0. apply H0.
  - destruct (secs_in _ O s H) as (c0 & A & B & I & D). apply D in H0 as (H0 & _). apply instr_at in H0. apply H0.
  - destruct (secs_in _ O s H) as (c0 & A & B & I & D). apply D in H0 as (_ & _ & H0). intros j n c K. apply head_at in K. exact (H0 _ _ _ K).
  - destruct (secs_in _ O s H) as (c0 & A & B & I & D). intros (L & K & M). apply D. split; [apply instr_at, K|]. split; [exact L|].
    intros j n c P. apply (M j n c), head_at, P.
  - apply secs_increasing, O.
  - intros s H. destruct (secs_in _ O s H) as (c0 & A & B & I & D). exact I.
Qed.

Lemma starts_orphan es : ordered es -> starts es = false <-> exists i e, In (i, Instr e) es /\ forall j n c, In (j, Head n c) es -> i < j.
Proof.
  intros O. destruct es as [|(k, x) es].
  - split; [discriminate|]. intros (i & e & [] & _).
  - apply ordered_cons in O as (O & F). destruct x as [n c|e].
    + split; [discriminate|]. intros (i & e & [K|K] & H); [discriminate|]. specialize (H k n c (or_introl eq_refl)). specialize (F _ _ K). lia.
    + split; [|reflexivity]. intros _. exists k, e. split; [left; reflexivity|]. intros j n c [K|K]; [discriminate|exact (F _ _ K)].
Qed.

Lemma expected_none file : parse_expected file = None <-> orphan file.
Proof.
  unfold parse_expected. rewrite parse_none. destruct (starts (entries 1 file)) eqn:E.
  - split; [discriminate|]. intros (i & e & A & H). assert (K : starts (entries 1 file) = false); [|congruence].
    apply (starts_orphan _ (entries_ordered file 1)). exists i, e. split; [apply instr_at, A|]. intros j n c K. apply (H j n c), head_at, K.
  - split; [intros _|reflexivity]. apply (starts_orphan _ (entries_ordered file 1)) in E as (i & e & A & H).
    exists i, e. split; [apply instr_at, A|]. intros j n c K. apply (H j n c), head_at, K.
Qed.
Lemma expected_states file ss : parse_expected file = Some ss -> states file ss.
Proof.
  unfold parse_expected. rewrite parse_none. destruct (starts (entries 1 file)); [|discriminate]. intros [= <-]. apply secs_state.
Qed.

(** The statement leaves no choice. *)
Lemma increasing_same l l' : increasing l -> increasing l' -> (forall x, In x l <-> In x l') -> l = l'.
Proof.
  revert l'. induction l as [|i l IH]; intros [|i' l'] H H' S; [reflexivity|destruct (proj2 (S i') (or_introl eq_refl))|destruct (proj1 (S i) (or_introl eq_refl))|].
  apply increasing_cons in H as (H & F). apply increasing_cons in H' as (H' & F').
  assert (E : i = i').
  { destruct (proj1 (S i) (or_introl eq_refl)) as [A|A]; [congruence|]. destruct (proj2 (S i') (or_introl eq_refl)) as [B|B]; [congruence|].
    specialize (F _ B). specialize (F' _ A). lia. }
  subst i'. f_equal. apply (IH l' H H'). intros x. split; intros K.
  - destruct (proj1 (S x) (or_intror K)) as [<-|A]; [|exact A]. specialize (F _ K). lia.
  - destruct (proj2 (S x) (or_intror K)) as [<-|A]; [|exact A]. specialize (F' _ K). lia.
Qed.
Lemma at_line_one file i e e' : at_line file i e -> at_line file i e' -> e = e'.
Proof.
  intros (j & l & -> & A & B & _) (j' & l' & E & A' & B' & _). injection E as <-. rewrite A in A'. injection A' as <-.
  apply beside_partition in B as (_ & ->). apply beside_partition in B' as (_ & ->). reflexivity.
Qed.
Lemma map_same {A} (f : A -> nat) (l l' : list A) : map f l = map f l' -> (forall x y, In x l -> In y l' -> f x = f y -> x = y) -> l = l'.
Proof.
  revert l'. induction l as [|x l IH]; intros [|y l'] E H; try discriminate; [reflexivity|]. injection E as E1 E2.
  f_equal; [apply H; [left; reflexivity|left; reflexivity|exact E1]|]. apply IH; [exact E2|]. intros a b Ha Hb. apply H; right; assumption.
Qed.
Lemma states_one file ss ss' : states file ss -> states file ss' -> ss = ss'.
Proof.
  intros (A & B & C & D) (A' & B' & C' & D').
  apply (map_same line).
  - apply (increasing_same _ _ C C'). intros i. rewrite !in_map_iff. split; intros (s & E & H).
    + destruct (proj2 (A' i (name s) (conditions s)) (proj1 (A i (name s) (conditions s)) (ex_intro _ s (conj H (conj E (conj eq_refl eq_refl)))))) as (s' & H' & E' & _).
      exists s'. auto.
    + destruct (proj2 (A i (name s) (conditions s)) (proj1 (A' i (name s) (conditions s)) (ex_intro _ s (conj H (conj E (conj eq_refl eq_refl)))))) as (s' & H' & E' & _).
      exists s'. auto.
  - intros s s' H H' E.
    destruct (proj1 (A _ _ _) (ex_intro _ s (conj H (conj eq_refl (conj eq_refl eq_refl))))) as (c & (e & L & K) & P).
    destruct (proj1 (A' _ _ _) (ex_intro _ s' (conj H' (conj eq_refl (conj eq_refl eq_refl))))) as (c' & (e' & L' & K') & P').
    rewrite E in L. pose proof (at_line_one _ _ _ _ L L') as <-. destruct (heading_one _ _ _ _ _ K K') as (N & <-). rewrite <- P' in P.
    assert (Q : body s = body s').
    { assert (I : forall i x, In (i, x) (body s) <-> In (i, x) (body s')) by (intros i x; rewrite (B s i x H), (B' s' i x H'), E; tauto).
      apply (map_same fst).
      - apply (increasing_same _ _ (D s H) (D' s' H')). intros i. rewrite !in_map_iff. split; intros ((j, x) & <- & J); exists (j, x); (split; [reflexivity|]); apply I, J.
      - intros (i, x) (j, y) Hx Hy F. cbn in F. subst j. f_equal. apply I in Hx. apply (B' s' i x H') in Hx. apply (B' s' i y H') in Hy.
        apply (at_line_one file i); [apply Hx|apply Hy]. }
    destruct s, s'; cbn in *. congruence.
Qed.
Lemma expected_some file ss : parse_expected file = Some ss <-> ~ orphan file /\ states file ss.
Proof.
  split.
  - intros H. split; [|exact (expected_states file ss H)]. intros O. apply expected_none in O. congruence.
  - intros (N & S). destruct (parse_expected file) as [ss'|] eqn:E; [|destruct N; apply expected_none, E].
    f_equal. exact (states_one file ss' ss (expected_states file ss' E) S).
Qed.
