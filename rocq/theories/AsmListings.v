(** Every selected listing does what its function has to do, and so does code that passes the check. *)
From Coq Require Import NArith Bool List Ascii String.
From Verif Require Import PyText Codegen CodegenSample CodegenSpec CodegenFacts Asm AsmSpec AsmFacts.
Import ListNotations.
Open Scope N_scope.
#[local] Opaque sections versions functions names sample_cpp.

Lemma names_distinct : NoDup (map fst names).
Proof.
  replace (map fst names) with (nodup (list_eq_dec ascii_dec) (map fst names)) by (vm_compute; reflexivity). apply NoDup_nodup.
Qed.
Lemma under_true vs ss c v s : In v vs -> selected (words c) v ss s = Some true -> under vs ss (convention_of c) s = true.
Proof.
  intros Hv E. unfold under. apply existsb_exists. exists c. split; [apply all_compilers|].
  assert (K : existsb (fun v => match selected (words c) v ss s with Some true => true | _ => false end) vs = true).
  { apply existsb_exists. exists v. rewrite E. split; [exact Hv|reflexivity]. }
  destruct (convention_of c); exact K.
Qed.
Lemma obliged vs ss c v s f : In v vs -> In s ss -> selected (words c) v ss s = Some true -> lookup (name s) names = Some f ->
  In (convention_of c, f, assemble (map snd (body s))) (obligations_of vs ss).
Proof.
  intros Hv Hs E L. unfold obligations_of. apply in_flat_map. exists s. split; [exact Hs|]. rewrite L.
  apply in_flat_map. exists (convention_of c). split; [destruct (convention_of c); cbn; auto|].
  rewrite (under_true vs ss c v s Hv E). left. reflexivity.
Qed.

Lemma listing_meets c v s f : long v -> In s sections -> selected (words c) v sections s = Some true ->
  lookup (name s) names = Some f ->
  exists code, assemble (map snd (body s)) = Some code /\ meets (convention_of c) (contract_of f) code.
Proof.
  intros Lv Hs E L. destruct (represented v Lv) as (r & Hr & R). rewrite (R (words c) s Hs) in E.
  pose proof (obliged versions sections c r s f Hr Hs E L) as H. rewrite obligations_eq in H.
  pose proof all_done as D. rewrite Forall_forall in D. destruct (D _ H) as (code & H1 & H2). cbn [fst snd] in H1, H2.
  exists code. split; assumption.
Qed.

(** A run of the test. *)
Lemma check_passes ids v ss d n : check ids v ss d = Some (n, true) ->
  forall s, In s ss -> selected ids v ss s = Some true -> disabled s = false -> listing_of (name s) d = Some (map snd (body s)).
Proof.
  unfold check. intros H. assert (G : forall l n, check_from ids v ss d l = Some (n, true) ->
    forall s, In s l -> selected ids v ss s = Some true -> disabled s = false -> listing_of (name s) d = Some (map snd (body s))).
  { clear. induction l as [|x l IH]; intros n H s; [intros []|]. cbn [check_from] in H. intros Hs E D.
    destruct (listing_of (name x) d) as [code|] eqn:L; [|discriminate].
    destruct (selected ids v ss x) as [[|]|] eqn:X; [| |discriminate].
    - destruct (check_from ids v ss d l) as [[k ok]|] eqn:C; [|discriminate]. injection H as <- H.
      apply andb_prop in H as [H ->]. destruct Hs as [<-|Hs]; [|exact (IH k eq_refl s Hs E D)].
      rewrite D in H. cbn [orb] in H. apply same_listing_true in H as ->. exact L.
    - destruct Hs as [<-|Hs]; [congruence|]. exact (IH n H s Hs E D). }
  exact (G ss n H).
Qed.

Lemma lookup_in {A} (l : list (text * A)) n f : NoDup (map fst l) -> In (n, f) l -> lookup n l = Some f.
Proof.
  unfold lookup. induction l as [|[m g] l IH]; cbn [map fst find]; intros D H; [destruct H|].
  inversion_clear D as [|? ? N D']. destruct (same_text n m) eqn:E.
  - apply same_text_true in E as <-. destruct H as [[= <-]|H]; [reflexivity|].
    destruct N. apply in_map_iff. exists (n, f). split; [reflexivity|exact H].
  - destruct H as [[= -> ->]|H]; [rewrite (proj2 (same_text_true n n) eq_refl) in E; discriminate|]. apply IH; assumption.
Qed.
Lemma lookup_names n f : lookup n names = Some f <-> In (n, f) names.
Proof.
  split.
  - unfold lookup. destruct (find (fun p => same_text n (fst p)) names) as [[m g]|] eqn:E; [|discriminate].
    cbn [option_map snd]. intros [= ->]. apply find_some in E as [H K]. apply same_text_true in K. cbn [fst] in K. subst m. exact H.
  - apply lookup_in. exact names_distinct.
Qed.

(** No listing of these functions is switched off, and all have listings. *)
Lemma names_listed : forallb (fun p => existsb (same_text (fst p)) functions) names = true.
Proof. vm_compute. reflexivity. Qed.
Definition mine (s : section) : bool := match lookup (name s) names with Some _ => true | None => false end.
Lemma none_disabled : forallb (fun s => implb (mine s) (negb (disabled s))) sections = true.
Proof. vm_compute. reflexivity. Qed.
Definition option_prefix : text := txt "option_".
Lemma option_functions :
  forallb (fun s => implb (match after_prefix option_prefix (name s) with Some _ => true | None => false end) (mine s)) sections = true.
Proof. vm_compute. reflexivity. Qed.

Lemma forallb_in {A} (p : A -> bool) l x : forallb p l = true -> In x l -> p x = true.
Proof. intros H. rewrite forallb_forall in H. apply H. Qed.

Lemma named_function n f : In (n, f) names -> In n functions.
Proof.
  intros H. pose proof (forallb_in _ names (n, f) names_listed H) as K. cbv beta in K. cbn [fst] in K.
  revert K. generalize functions as l. intros l K. rewrite existsb_exists in K. destruct K as (x & Hx & E).
  apply same_text_true in E. rewrite E. exact Hx.
Qed.

Lemma each_listing c v n f : long v -> In (n, f) names ->
  exists s code, In s sections /\ name s = n /\ selected (words c) v sections s = Some true /\
    assemble (map snd (body s)) = Some code /\ meets (convention_of c) (contract_of f) code.
Proof.
  intros Lv H. destruct (one_listing c v n Lv (named_function n f H)) as (s & Hs & N & E & _).
  destruct (listing_meets c v s f Lv Hs E) as (code & A & M); [rewrite N; apply lookup_names; exact H|].
  exists s, code. exact (conj Hs (conj N (conj E (conj A M)))).
Qed.

Lemma passing_run c v d n : long v -> check (words c) v sections d = Some (n, true) ->
  forall g f, In (g, f) names ->
  exists l code, listing_of g d = Some l /\ assemble l = Some code /\ meets (convention_of c) (contract_of f) code.
Proof.
  intros Lv H g f Hf. destruct (each_listing c v g f Lv Hf) as (s & code & Hs & N & E & A & M).
  exists (map snd (body s)), code. split; [|split; assumption].
  rewrite <- N. apply (check_passes (words c) v sections d n H s Hs E).
  pose proof (forallb_in _ sections s none_disabled Hs) as K. cbv beta in K. unfold mine in K.
  rewrite N, (proj2 (lookup_names g f) Hf) in K. cbn [implb] in K. apply negb_true_iff in K. exact K.
Qed.

Lemma option_names s r : In s sections -> after_prefix option_prefix (name s) = Some r -> exists f, In (name s, f) names.
Proof.
  intros Hs E. pose proof (forallb_in _ sections s option_functions Hs) as K. cbv beta in K. rewrite E in K. cbn [implb] in K.
  unfold mine in K. destruct (lookup (name s) names) as [f|] eqn:L; [|discriminate]. exists f. apply lookup_names. exact L.
Qed.
