(** The listings of sample.cpp, executed. *)
From Coq Require Import ZArith NArith Bool List Ascii String Lia ZifyBool ZifyNat ZifyN.
From Verif Require Import Outcome Words WordsFacts Types OptBytes TypesSpec PyText Codegen CodegenSpec CodegenFacts Asm AsmSpec.
Import ListNotations.
Open Scope N_scope.

(** * Memory *)

Lemma load_length m a n : List.length (load m a n) = n.
Proof. unfold load. rewrite map_length, seq_length. reflexivity. Qed.

Lemma nth_load m a n i d : (i < n)%nat -> nth i (load m a n) d = m (a + Z.of_nat i)%Z.
Proof.
  intros H. unfold load. rewrite (nth_indep _ d (m (a + Z.of_nat 0)%Z)) by (rewrite map_length, seq_length; exact H).
  rewrite (map_nth (fun i => m (a + Z.of_nat i)%Z)), seq_nth by exact H. reflexivity.
Qed.

Lemma nth_firstn {A} (l : list A) n i d : (i < n)%nat -> nth i (firstn n l) d = nth i l d.
Proof.
  revert n i. induction l as [|x l IH]; intros [|n] [|i] H; cbn; try lia; try reflexivity. apply IH. lia.
Qed.
Lemma nth_skipn {A} (l : list A) n i d : nth i (skipn n l) d = nth (n + i) l d.
Proof. revert n. induction l as [|x l IH]; intros [|n]; cbn; try reflexivity; [destruct i; reflexivity|apply IH]. Qed.

Lemma nth_splice off (l b : bytes) i d : (off + List.length l <= List.length b)%nat ->
  nth i (splice off l b) d =
  if (Nat.leb off i && Nat.ltb i (off + List.length l))%bool then nth (i - off) l d else nth i b d.
Proof.
  intros H. unfold splice. destruct (Nat.leb off i) eqn:E.
  - rewrite app_nth2 by (rewrite firstn_length; lia).
    replace (List.length (firstn off b)) with off by (rewrite firstn_length; lia).
    cbn [andb]. destruct (Nat.ltb i (off + List.length l)) eqn:F.
    + rewrite app_nth1 by lia. reflexivity.
    + rewrite app_nth2 by lia. rewrite nth_skipn. f_equal. lia.
  - cbn [andb]. rewrite app_nth1 by (rewrite firstn_length; lia). apply nth_firstn. lia.
Qed.
Lemma length_splice off (l b : bytes) : (off + List.length l <= List.length b)%nat ->
  List.length (splice off l b) = List.length b.
Proof. intros H. unfold splice. rewrite !app_length, firstn_length, skipn_length. lia. Qed.

(** Writing inside an object is a splice. *)
Lemma load_store m a x l n : (a <= x)%Z -> (x + Z.of_nat (List.length l) <= a + Z.of_nat n)%Z ->
  load (store m x l) a n = splice (Z.to_nat (x - a)) l (load m a n).
Proof.
  intros Ha Hx. apply (nth_ext _ _ 0 0); [rewrite length_splice, !load_length; [reflexivity|rewrite load_length; lia]|].
  rewrite load_length. intros i Hi. rewrite nth_splice by (rewrite load_length; lia).
  rewrite !nth_load by exact Hi. unfold store.
  destruct ((x <=? a + Z.of_nat i) && (a + Z.of_nat i <? x + Z.of_nat (List.length l)))%Z eqn:E;
    destruct (Nat.leb (Z.to_nat (x - a)) i && Nat.ltb i (Z.to_nat (x - a) + List.length l))%bool eqn:F; try lia.
  f_equal. lia.
Qed.
(** Writing elsewhere changes nothing. *)
Lemma load_store_other m a x l n : (x + Z.of_nat (List.length l) <= a \/ a + Z.of_nat n <= x)%Z ->
  load (store m x l) a n = load m a n.
Proof.
  intros H. apply map_ext_in. intros i Hi. apply in_seq in Hi. unfold store.
  replace ((x <=? a + Z.of_nat i) && (a + Z.of_nat i <? x + Z.of_nat (List.length l)))%Z with false by lia. reflexivity.
Qed.
Lemma store_other m x l y : ~ inside x (List.length l) y -> store m x l y = m y.
Proof. unfold inside, store. intros H. replace ((x <=? y) && (y <? x + Z.of_nat (List.length l)))%Z with false by lia. reflexivity. Qed.

Lemma load_bytes m a n : (forall x, m x < 256) -> is_bytes (load m a n).
Proof. intros H. apply Forall_forall. intros x Hx. apply in_map_iff in Hx as (i & <- & _). apply H. Qed.

Lemma load_sized m a n : (forall x, m x < 256) -> sized n (load m a n).
Proof. intros H. split; [apply load_length|apply load_bytes, H]. Qed.

Lemma in_range_true a n : (0 <= a)%Z -> (a + Z.of_nat n <= 2 ^ 64)%Z -> in_range a n = true.
Proof. unfold in_range. lia. Qed.


(** * Execution *)

Lemma every_byte (p : N -> bool) : forallb p (map N.of_nat (seq 0 256)) = true -> forall x, x < 256 -> p x = true.
Proof.
  intros H x L. rewrite forallb_forall in H. apply H. apply in_map_iff. exists (N.to_nat x). split; [lia|]. apply in_seq. lia.
Qed.
Definition answers (f : bytes -> res bool) (x : N) (h : bool) : bool :=
  match f [x] with Ok b => Bool.eqb b h | _ => false end.
Lemma answers_ok f x h : answers f x h = true -> f [x] = Ok h.
Proof. unfold answers. destruct (f [x]) as [b| |]; try discriminate. intros E. apply eqb_prop in E as ->. reflexivity. Qed.
Lemma given_true c g : implb c g = true -> c = true -> g = true.
Proof. intros H ->. exact H. Qed.
Lemma given_false c g : implb (negb c) g = true -> c = false -> g = true.
Proof. intros H ->. exact H. Qed.

Lemma has_float a b c d : opt_has_value float_t [a; b; c; d] = Ok (negb (wsub (wbase 4) (le_decode [a; b; c; d]) 0xFFBF69AF =? 0)).
Proof. reflexivity. Qed.
Lemma has_double a b c d e f g h : opt_has_value double_t [a; b; c; d; e; f; g; h] =
  Ok (negb (wsub (wbase 8) (le_decode [a; b; c; d; e; f; g; h]) 0xFFF6C79F55B0898F =? 0)).
Proof. reflexivity. Qed.

Lemma store_keeps m x l y : (y < x \/ x + Z.of_nat (List.length l) <= y)%Z -> store m x l y = m y.
Proof. intros H. apply store_other. unfold inside. lia. Qed.

Ltac closed_values :=
  repeat match goal with
  | |- context [le_encode ?w (Z.to_N (?z mod Z.of_N (wbase ?v)))] =>
      let x := eval vm_compute in (le_encode w (Z.to_N (z mod Z.of_N (wbase v)))) in
      change (le_encode w (Z.to_N (z mod Z.of_N (wbase v)))) with x
  end.
Ltac known_bytes :=
  repeat match goal with
  | H : ?rg ?r = _ :: _ |- context [?rg ?r] => rewrite H
  | H : load ?m ?a ?n = _ :: _ |- context [load ?m ?a ?n] => rewrite H
  | H : Z.of_N (le_decode ?b) = ?a |- context [Z.of_N (le_decode ?b)] => is_var a; rewrite H
  end.
(** Name the bytes of a list of known length. *)
Ltac peel L :=
  match type of L with
  | List.length ?b = O => destruct b; [|discriminate L]
  | List.length ?b = S _ => destruct b as [|? b]; [discriminate L|]; cbn [List.length] in L; apply Nat.succ_inj in L; peel L
  end.
Ltac name_bytes b S :=
  let E := fresh "Eb" in let B := fresh "Bb" in let L := fresh "L" in let c := fresh "b" in
  destruct S as [L B]; remember b as c eqn:E; symmetry in E; peel L; clear L; unfold is_bytes in B;
  repeat match goal with H : Forall _ (_ :: _) |- _ => inversion_clear H end.
Ltac name_load m a n :=
  match goal with Hm : forall x, m x < 256 |- _ => let S := fresh in pose proof (load_sized m a n Hm) as S; name_bytes (load m a n) S end.
Ltac name_register Hr r := let S := fresh in pose proof (Hr r) as S; match type of S with sized _ ?b => name_bytes b S end.
Ltac registers Hr :=
  name_register Hr RAX; name_register Hr RCX; name_register Hr RDX; name_register Hr RDI; name_register Hr RSI.
(** Addresses are a pointer and a literal. *)
Ltac offsets :=
  repeat match goal with
  | |- context [(?a + 0)%Z] => rewrite (Z.add_0_r a)
  | |- context [Z.to_nat (?a + ?p - (?a + ?q))] =>
      let n := eval vm_compute in (Z.to_nat (p - q)) in replace (Z.to_nat (a + p - (a + q))) with n by lia
  | |- context [Z.to_nat (?a + ?p - ?a)] =>
      let n := eval vm_compute in (Z.to_nat p) in replace (Z.to_nat (a + p - a)) with n by lia
  | |- context [Z.to_nat (?a - ?a)] => replace (Z.to_nat (a - a)) with O by lia
  | |- context [Z.to_nat (?a - (?a + ?q))] =>
      let n := eval vm_compute in (Z.to_nat (- q)) in replace (Z.to_nat (a - (a + q))) with n by lia
  end.
Ltac loads :=
  repeat (offsets; match goal with
  | |- context [load (store ?m ?x ?l) ?a ?n] => rewrite (load_store m a x l n) by (cbn [List.length]; lia)
  | |- context [load (store ?m ?x ?l) ?a ?n] => rewrite (load_store_other m a x l n) by (cbn [List.length]; lia)
  end); offsets.
Ltac go :=
  repeat (progress (cbv beta iota zeta delta [run exec step bind width read_op write_op pointer set_reg set_mem set_flags regs mem zf cf
             reg_eqb Nat.eqb Nat.ltb Nat.leb Nat.sub andb holds writes_back compute carry same_text Ascii.eqb Bool.eqb slice splice firstn skipn
             app repeat List.length Nat.add]; closed_values; known_bytes; rewrite ?N.lxor_nilpotent;
             repeat match goal with |- context [le_encode ?n 0] => let x := eval vm_compute in (le_encode n 0) in change (le_encode n 0) with x end;
             cbv beta iota delta [le_encode]; change (0 mod 256) with 0; change (0 / 256) with 0; change (0 mod 256) with 0;
             try match goal with |- context [in_range ?a ?n] => rewrite (in_range_true a n) by lia end; loads)).
Ltac small_sizes :=
  repeat match goal with
  | |- context [sizeof (TOption ?t)] => let n := eval vm_compute in (sizeof (TOption t)) in
      replace (sizeof (TOption t)) with n by (vm_compute; reflexivity)
  end.
(** The specified function is kept under another name during execution. *)
Inductive body_is {A} (a : A) : A -> Prop := is_body : body_is a a.
Lemma hide {A} (a : A) (P : A -> Prop) : (forall F, body_is a F -> P F) -> P a.
Proof. intros H. apply H. constructor. Qed.
Ltac hide_as f := pattern f; apply hide; let F := fresh "F" in let E := fresh "EF" in intros F E.
Ltac hide_body :=
  cbn [contract_of];
  match goal with
  | |- meets _ (Changes _ ?f) _ => hide_as f
  | |- meets _ (Makes _ ?f) _ => hide_as f
  | |- meets _ (Tells _ ?f) _ => hide_as f
  | |- meets _ (Assigns _) _ => idtac
  end.
Ltac show_body := match goal with H : body_is _ _ |- _ => destruct H end.
Ltac start :=
  hide_body;
  intros [rg m z c] (Hr & Hm & H1 & H2); cbn [first_argument second_argument in_registers]; cbv zeta;
  small_sizes; cbn [in_registers Nat.leb]; unfold pointer in *; cbn [regs mem] in *; registers Hr; known_bytes.
Ltac in_place :=
  let P1 := fresh "P" in let P2 := fresh "P" in let P3 := fresh "P" in intros (P1 & P2 & P3).
Ltac keeping :=
  split; [go; reflexivity|]; go; unfold scratch, inside, pointer; cbn [regs]; intros; cbn [mem]; known_bytes;
  rewrite ?store_keeps by (cbn [List.length]; lia); reflexivity.
Ltac bytes_known :=
  split; [reflexivity|]; unfold is_bytes; repeat first [apply Forall_nil | apply Forall_cons; [first [assumption | reflexivity]|]].

Ltac changes :=
  start; in_place;
  match goal with |- context [load ?m ?a ?n] => name_load m a n end;
  eexists; split; [go; reflexivity|]; split; [go; show_body; vm_compute; reflexivity|keeping].

Ltac makes_here :=
  start; in_place;
  match goal with |- context [load ?m ?a ?n] => name_load m a n end;
  eexists; split; [go; reflexivity|]; split; [go; show_body; vm_compute; reflexivity|]; split; [go; reflexivity|keeping].

Ltac name_stack m sp := name_load m (sp + -8)%Z 8%nat; name_load m (sp + -16)%Z 8%nat; name_load m (sp + -24)%Z 8%nat.
Ltac makes :=
  start;
  lazymatch goal with
  | |- context [Mem _ RSP _] => match goal with m : Z -> N, H : (128 <= ?sp)%Z |- _ => name_stack m sp end
  | |- _ => idtac
  end;
  eexists; eexists; split; [go; reflexivity|]; go;
  match goal with |- sized _ ?b /\ _ = Ok ?r /\ _ => unify b r end; split; [bytes_known|]; split; [show_body; vm_compute; reflexivity|keeping].

(** A byte: all values are tried. *)
Ltac by_bytes :=
  apply answers_ok; show_body;
  repeat match goal with
  | C : _ = true |- _ = true => revert C; apply given_true
  | C : _ = false |- _ = true => revert C; apply given_false
  end;
  lazymatch goal with
  | |- context [answers _ ?x _] =>
      lazymatch goal with
      | Hx : x < 256 |- ?g = true =>
          let p := eval pattern x in g in
          lazymatch p with ?f _ => refine (every_byte f _ x Hx); vm_compute; reflexivity end
      end
  end.
Ltac answer :=
  match goal with
  | |- exists s' h, Some ?st = Some s' /\ _ => exists st
  | |- exists s' h, (if ?c then _ else _) = Some s' /\ _ => destruct c eqn:?; answer
  end.
Ltac told :=
  cbv beta iota zeta delta [regs];
  match goal with
  | |- exists h, _ /\ _ /\ [if ?b then 1 else 0] = _ /\ _ => exists b
  | |- exists h, _ /\ _ /\ [?x] = _ /\ _ => let v := eval vm_compute in (x =? 1) in exists v
  end;
  split; [reflexivity|]; split; [by_bytes || (show_body; rewrite ?has_float, ?has_double; reflexivity)|]; split; [reflexivity|keeping].
Ltac tells :=
  start; in_place;
  match goal with |- context [load ?m ?a ?n] => name_load m a n end;
  go; answer; told.

(** Arrays of 1024: the size is not written out. *)
Lemma ints_default b : opt_default (TArray 1024 int_t) b = Ok (splice (Z.to_nat 4096) [0] b).
Proof.
  unfold opt_default. replace (max_level (TArray 1024 int_t) =? 0) with true by (vm_compute; reflexivity).
  replace (sizeof (TArray 1024 int_t)) with (Z.to_nat 4096) by (vm_compute; reflexivity). reflexivity.
Qed.
Lemma floats_default b : (4 <= List.length b)%nat ->
  opt_default (TArray 1024 float_t) b = Ok (splice (Z.to_nat 0) [175; 105; 191; 255] b).
Proof. intros L. do 4 (destruct b as [|? b]; [cbn in L; lia|]). reflexivity. Qed.

Ltac large_start :=
  hide_body; intros [rg m z c] (Hr & Hm & H1 & H2); cbn [first_argument second_argument]; cbv zeta;
  match goal with
  | |- context [sizeof (TOption ?t)] =>
      try replace (in_registers SystemV (sizeof (TOption t))) with false by (vm_compute; reflexivity);
      assert (Sz : exists z, Z.of_nat (sizeof (TOption t)) = z /\ (4096 <= z <= 4100)%Z /\
        match t with TArray _ (TFloat32 _) => z = 4096 | _ => z = 4100 end%Z)
        by (exists (Z.of_nat (sizeof (TOption t))); vm_compute; repeat split; congruence);
      destruct Sz as (size & Sz & Sb & Sx); cbn in Sx; remember (sizeof (TOption t)) as n eqn:En; clear En
  end;
  cbn [in_registers]; unfold pointer in *; cbn [regs mem] in *; registers Hr; known_bytes.
Lemma splice_at off off' (l b : bytes) : off = off' -> Ok (splice off l b) = Ok (splice off' l b).
Proof. intros ->. reflexivity. Qed.
Ltac makes_large :=
  large_start; in_place; eexists; split; [go; reflexivity|]; cbn [mem];
  split; [offsets; rewrite load_store by (cbn [List.length]; lia); show_body;
          rewrite ?ints_default; rewrite ?floats_default by (rewrite load_length; lia); apply splice_at; lia
         |split; [go; reflexivity|keeping]].

(** Copy assignment of option<int>. *)
Lemma load_app m a n k : load m a (n + k) = load m a n ++ load m (a + Z.of_nat n) k.
Proof.
  unfold load. rewrite seq_app, map_app. f_equal. rewrite Nat.add_0_l.
  replace (seq n k) with (map (Nat.add n) (seq 0 k)).
  - rewrite map_map. apply map_ext. intros i. f_equal. lia.
  - rewrite <- (Nat.add_0_r n) at 2. generalize O as j. induction k as [|k IH]; intros j; [reflexivity|].
    cbn. f_equal. rewrite IH. f_equal. lia.
Qed.
Lemma load_8 m a : load m a 8 = load m a 4 ++ load m (a + 4) 1 ++ load m (a + 5) 3.
Proof.
  change 8%nat with (4 + (1 + 3))%nat. rewrite load_app, load_app. f_equal. f_equal. f_equal. lia.
Qed.
Lemma apart a b n : (forall x, inside a n x -> ~ inside b n x) -> (0 < n)%nat -> (a + Z.of_nat n <= b \/ b + Z.of_nat n <= a)%Z.
Proof. unfold inside. intros H L. pose proof (H a ltac:(lia)). pose proof (H b). lia. Qed.

Lemma read_flag a b c d e f g h : read_bool 4 [a; b; c; d; e; f; g; h] = if e =? 0 then Ok false else if e =? 1 then Ok true else UB.
Proof. unfold read_bool, read_word. cbn [slice skipn firstn le_decode]. rewrite N.mul_0_r, N.add_0_r. reflexivity. Qed.
Lemma valid_int a b c d e f g h : valid (TOption int_t) [a; b; c; d; e; f; g; h] <->
  is_bytes [a; b; c; d; e; f; g; h] /\ (e = 0 \/ e = 1).
Proof.
  cbn. rewrite read_flag. split.
  - intros ((_ & B) & H). split; [exact B|]. destruct (e =? 0) eqn:E0; [lia|]. destruct (e =? 1) eqn:E1; [lia|].
    destruct H as [H|[H _]]; discriminate.
  - intros (B & H). split; [split; [reflexivity|exact B]|]. destruct H as [-> | ->]; [left; reflexivity|right].
    split; [reflexivity|]. split; [reflexivity|]. apply (Forall_firstn' _ 4) in B. exact B.
Qed.

(** The flag and the first four bytes are copied; the padding is not looked at. *)
Lemma assign_int o b r : valid (TOption int_t) o -> valid (TOption int_t) b -> sized 8 r ->
  firstn 5 r = firstn 5 o ->
  exists x, opt_assign true int_t o b = Ok x /\ valid (TOption int_t) r /\ decode (TOption int_t) r = decode (TOption int_t) x.
Proof.
  intros Vo Vb [Lr Br] E.
  pose proof (proj1 Vo) as [Lo _]. pose proof (proj1 Vb) as [Lb _].
  change (List.length o = 8%nat) in Lo. change (List.length b = 8%nat) in Lb.
  peel Lo. peel Lb. peel Lr. cbn in E. injection E as -> -> -> -> ->.
  apply valid_int in Vo as (Bo & Fo). apply valid_int in Vb as (Bb & Fb). clear Lo Lb Lr.
  setoid_rewrite valid_int.
  destruct Fo as [-> | ->], Fb as [-> | ->]; eexists; (split; [reflexivity|]); (split; [split; [exact Br|auto]|reflexivity]).
Qed.
Lemma assigns_int k code :
  (forall rg m z c A B, (forall r, sized 8 (rg r)) -> (forall x, m x < 256) ->
     Z.of_N (le_decode (rg (first_argument k))) = A -> Z.of_N (le_decode (rg (second_argument k))) = B ->
     (0 <= A)%Z -> (A + 8 <= 2 ^ 64)%Z -> (0 <= B)%Z -> (B + 8 <= 2 ^ 64)%Z -> (A = B \/ A + 8 <= B \/ B + 8 <= A)%Z ->
     exists s', run code (mkstate rg m z c) = Some s' /\ firstn 5 (load (mem s') A 8) = firstn 5 (load m B 8) /\
       is_bytes (load (mem s') A 8) /\ keeps k (mkstate rg m z c) s' (inside A 8)) ->
  meets k (Assigns int_t) code.
Proof.
  intros H [rg m z c] (Hr & Hm & H1 & H2). cbv zeta. change (sizeof (TOption int_t)) with 8%nat. unfold pointer in *. cbn [regs mem] in *.
  intros (P1 & P2 & _) (Q1 & Q2 & _) D Va Vb.
  destruct (H rg m z c _ _ Hr Hm eq_refl eq_refl P1 P2 Q1 Q2) as (s' & R & F & B & K).
  { destruct D as [D|D]; [left; exact D|right]. apply apart in D; lia. }
  destruct (assign_int _ _ (load (mem s') (Z.of_N (le_decode (rg (first_argument k)))) 8) Vb Va) as (x & X1 & X2 & X3);
    [split; [apply load_length|exact B]|exact F|].
  exists s', x. exact (conj R (conj X1 (conj X2 (conj X3 K)))).
Qed.
Ltac each_byte := unfold is_bytes; repeat first [apply Forall_nil | apply Forall_cons; [first [assumption | reflexivity]|]].
Ltac assigned :=
  eexists; split; [go; reflexivity|]; split; [go; reflexivity|]; split; [go; each_byte|keeping].
Ltac parts m A := name_load m A 4%nat; name_load m (A + 4)%Z 1%nat; name_load m (A + 5)%Z 3%nat.
Ltac assigns_from rg m z c A B Hr :=
  cbn [first_argument second_argument] in *; name_register Hr RAX; name_load m A 8%nat;
  match goal with D : (A = B \/ _)%Z |- _ => destruct D as [<- | D] end;
  [first [assigned | rewrite (load_8 m A); parts m A; assigned]
  |first [name_load m B 8%nat; assigned | rewrite (load_8 m B); parts m B; assigned]].
Ltac assigns :=
  cbn [contract_of]; apply assigns_int;
  let rg := fresh "rg" in let m := fresh "m" in let z := fresh "z" in let c := fresh "c" in let A := fresh "A" in
  let B := fresh "B" in let Hr := fresh "Hr" in
  intros rg m z c A B Hr; intros; assigns_from rg m z c A B Hr.

(** * All listings *)

(** The listings selected for some compiler with the convention k and some version. *)
Definition under (vs : list version) (ss : list section) (k : convention) (s : section) : bool :=
  existsb (fun c =>
    match k, convention_of c with
    | SystemV, SystemV | Windows, Windows =>
        existsb (fun v => match selected (words c) v ss s with Some true => true | _ => false end) vs
    | _, _ => false
    end) compilers.
Definition obligations_of (vs : list version) (ss : list section) : list (convention * fn * option (list instr)) :=
  flat_map (fun s =>
    match lookup (name s) names with
    | Some f => flat_map (fun k => if under vs ss k s then [(k, f, assemble (map snd (body s)))] else []) [SystemV; Windows]
    | None => []
    end) ss.
Definition obligations : list (convention * fn * option (list instr)) := Eval vm_compute in obligations_of versions sections.
Lemma obligations_eq : obligations_of versions sections = obligations.
Proof. vm_cast_no_check (@eq_refl _ obligations). Qed.

Definition done (o : convention * fn * option (list instr)) : Prop :=
  exists code, snd o = Some code /\ meets (fst (fst o)) (contract_of (snd (fst o))) code.
Ltac discharge :=
  eexists; split; [reflexivity|]; cbn [fst snd];
  lazymatch goal with
  | |- meets _ (contract_of IntAssignOption) _ => assigns
  | |- meets _ (contract_of Ints1024None) _ => makes_large
  | |- meets _ (contract_of Floats1024None) _ => makes_large
  | |- meets ?k ?c _ =>
      let c := eval cbn [contract_of] in c in
      lazymatch c with
      | Changes _ _ => changes
      | Tells _ _ => tells
      | Makes _ _ => lazymatch k with SystemV => makes | Windows => makes_here end
      end
  end.
Lemma all_done : Forall done obligations.
Proof. unfold obligations. repeat (apply Forall_cons; [discharge|]). apply Forall_nil. Qed.

