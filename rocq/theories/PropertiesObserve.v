(** Properties of reference options and of the functions that observe options (C26, C34-C40), each
    with a concrete case that meets its hypotheses. *)
From Coq Require Import NArith ZArith Bool List Lia ZifyBool ZifyN.
From Verif Require Import Outcome Words Types OptBytes TypesSpec Lifetime LifetimeSpec Api ApiSpec Classes ClassesFacts
  RefOpt RefOptSpec RefOptFacts Observe ObserveSpec ObserveFacts Iter IterFacts Lookup LookupFacts AsOption AsOptionFacts
  OptBytesFacts LifetimeFacts.
Import ListNotations.
Open Scope N_scope.

(** C26: any program over reference options does to the bindings and to the objects what the
    specification says: same outcome, same bindings, same heap. *)
Theorem C26_programs : forall V (cs : list (rcall V)) s t, Forall proper cs -> same_world s t ->
  same_res (rrun cs s) (spec_run cs t).
Proof. intros V. exact run_ok. Qed.
Print Assumptions C26_programs.

(** No program made of operations on the options themselves changes any object. *)
Theorem C26_no_write_through : forall V (cs : list (rcall V)) s s', Forall silent cs -> rrun cs s = Ok s' -> snd s' = snd s.
Proof. intros V. exact silent_run. Qed.
Print Assumptions C26_no_write_through.

(** Assignment through the reference changes exactly the object that is referred to. *)
Theorem C26_write : forall V x (v : V) e h p, e x = Some p ->
  rstep (RWrite x v) (e, h) =
  match meaning p with
  | None => Verify
  | Some a => match h a with
              | Some _ => Ok (e, store a v h)
              | None => UB
              end
  end.
Proof. intros V. exact write_step. Qed.
Print Assumptions C26_write.

Theorem C26_checked_only : forall V (c : rcall V) e h, proper c -> unchecked c -> rstep c (e, h) <> Verify.
Proof. intros V. exact checked_only. Qed.
Print Assumptions C26_checked_only.

(** Two objects at 100 and 200; x is bound to the first, y copies it, x is rebound to the second and
    written through, then the two are swapped and y is taken. *)
Definition ex26_heap : heap N := fun a => if a =? 100 then Some 1 else if a =? 200 then Some 2 else None.
Definition ex26 : list (rcall N) :=
  [RRef 0 100; RCopy 1 0; RAssignRef 0 200; RWrite 0 7; RSwap 0 1; RTake 2 1; RTryEmplace 0 200; RAssign 1 0].
Example C26_ex : Forall proper ex26 /\
  exists e h, rrun ex26 (fun _ => None, ex26_heap) = Ok (e, h) /\
    (e 0%nat, e 1%nat, e 2%nat) = (Some 100, Some 100, Some 200) /\ (h 100, h 200, h 300) = (Some 1, Some 7, None).
Proof.
  split; [repeat constructor; cbn; discriminate|]. do 2 eexists. split; [reflexivity|]. split; reflexivity.
Qed.
Example C26_silent_ex :
  Forall silent [RRef 0 100; RCopy 1 0; RAssignRef 0 200; RSwap 0 1; RTake 2 1 : rcall N].
Proof. repeat constructor. Qed.

(** C34: all 30 comparison operators compute the order on optionals in which none is least. *)
Theorem C34_option_option : forall W W' (C : cls W) (D : cls W') (S : sem C) (T : sem D), lawful C S -> lawful D T ->
  forall (op : rel6 -> raw C -> raw D -> out bool) (f : rel6 -> V S -> V T -> bool) l r,
  (forall q, computes S T (op q) (f q)) -> inv C S l -> inv D T r ->
  let want q := Ret (lift6 q (f q) (oval C S l) (oval D T r)) in
  c_eq (op REq) l r = want REq /\ c_ne (op RNe) l r = want RNe /\ c_lt (op RLt) l r = want RLt /\
  c_le (op RLe) l r = want RLe /\ c_gt (op RGt) l r = want RGt /\ c_ge (op RGe) l r = want RGe.
Proof. intros W W' C D S T L LD. exact (six_lift S T L LD). Qed.
Print Assumptions C34_option_option.

(** For operators that may throw: T's operator is used iff both are engaged. *)
Theorem C34_operator_used : forall W W' (C : cls W) (D : cls W') (S : sem C) (T : sem D), lawful C S -> lawful D T ->
  forall op l r, inv C S l -> inv D T r ->
  let want b := if c_alive l && c_alive r then op (c_raw l) (c_raw r) else Ret b in
  let (x, y) := (c_alive l, c_alive r) in
  c_eq op l r = want (Bool.eqb x y) /\ c_ne op l r = want (xorb x y) /\ c_lt op l r = want (negb x && y) /\
  c_le op l r = want (negb x || y) /\ c_gt op l r = want (x && negb y) /\ c_ge op l r = want (x || negb y).
Proof. intros W W' C D S T L LD. exact (operator_used S T L LD). Qed.
Print Assumptions C34_operator_used.

Theorem C34_option_none : forall W (C : cls W) (S : sem C), lawful C S ->
  forall B (f : V S -> B -> bool) (g : B -> V S -> bool) c, inv C S c ->
  let want q := Ret (lift6 q f (oval C S c) None) in
  let want' q := Ret (lift6 q g None (oval C S c)) in
  eq_none c = want REq /\ ne_none c = want RNe /\ lt_none c = want RLt /\
  le_none c = want RLe /\ gt_none c = want RGt /\ ge_none c = want RGe /\
  none_eq c = want' REq /\ none_ne c = want' RNe /\ none_lt c = want' RLt /\
  none_le c = want' RLe /\ none_gt c = want' RGt /\ none_ge c = want' RGe.
Proof. intros W C S L. exact (none_lift S L). Qed.
Print Assumptions C34_option_none.

Theorem C34_option_value : forall W (C : cls W) (S : sem C), lawful C S ->
  forall X (op : rel6 -> raw C -> X -> out bool) (op' : rel6 -> X -> raw C -> out bool) f g c x,
  (forall q r, ok S r -> op q r x = Ret (f q (val S r) x)) ->
  (forall q r, ok S r -> op' q x r = Ret (g q x (val S r))) -> inv C S c ->
  let want q := Ret (lift6 q (f q) (oval C S c) (Some x)) in
  let want' q := Ret (lift6 q (g q) (Some x) (oval C S c)) in
  eq_value (op REq) c x = want REq /\ ne_value (op RNe) c x = want RNe /\ lt_value (op RLt) c x = want RLt /\
  le_value (op RLe) c x = want RLe /\ gt_value (op RGt) c x = want RGt /\ ge_value (op RGe) c x = want RGe /\
  value_eq (op' REq) x c = want' REq /\ value_ne (op' RNe) x c = want' RNe /\ value_lt (op' RLt) x c = want' RLt /\
  value_le (op' RLe) x c = want' RLe /\ value_gt (op' RGt) x c = want' RGt /\ value_ge (op' RGe) x c = want' RGe.
Proof. intros W C S L. exact (value_lift S L). Qed.
Print Assumptions C34_option_value.

(** That order inherits consistency, strict weak order, equivalence and totality from T. *)
Theorem C34_consistent : forall X Y (op : rel6 -> X -> Y -> bool), consistent op ->
  consistent (fun q => lift6 q (op q)) /\
  forall q x y, lift6 (negate q) (op (negate q)) x y = negb (lift6 q (op q) x y).
Proof.
  intros X Y op H. exact (conj (lift_consistent X Y op H) (consistent_negate _ _ _ (lift_consistent X Y op H))).
Qed.
Print Assumptions C34_consistent.
Theorem C34_mirrored : forall X Y (op : rel6 -> X -> Y -> bool) op', mirrored op op' ->
  mirrored (fun q => lift6 q (op q)) (fun q => lift6 q (op' q)).
Proof. exact lift_mirrored. Qed.
Print Assumptions C34_mirrored.
Theorem C34_strict_weak : forall A (lt : A -> A -> bool), strict_weak lt -> strict_weak (lift6 RLt lt).
Proof. intros A. exact lift_strict_weak. Qed.
Print Assumptions C34_strict_weak.
Theorem C34_equivalence : forall A (eq : A -> A -> bool), equivalence eq -> equivalence (lift6 REq eq).
Proof. intros A. exact lift_equivalence. Qed.
Print Assumptions C34_equivalence.
Theorem C34_total : forall A (op : rel6 -> A -> A -> bool), consistent op -> strict_weak (op RLt) -> equivalence (op REq) ->
  mirrored op op ->
  forall a b c,
  lift6 RLe (op RLe) a b = (lift6 RLt (op RLt) a b || lift6 REq (op REq) a b)%bool /\
  (lift6 RLe (op RLe) a b = true -> lift6 RLe (op RLe) b c = true -> lift6 RLe (op RLe) a c = true) /\
  (lift6 RLe (op RLe) a b = true -> lift6 RLe (op RLe) b a = true -> lift6 REq (op REq) a b = true) /\
  (lift6 RLe (op RLe) a b || lift6 RLe (op RLe) b a)%bool = true.
Proof. intros A. exact lift_total. Qed.
Print Assumptions C34_total.
Theorem C34_none_least : forall A (op : rel6 -> A -> A -> bool) x a,
  lift6 RLt (op RLt) None (Some x) = true /\ lift6 RLe (op RLe) None a = true /\
  lift6 RLt (op RLt) a None = false /\ (lift6 REq (op REq) a None = true <-> a = None).
Proof. intros A. exact none_least. Qed.
Print Assumptions C34_none_least.

(** The operators of the numbers, on the examples' class. *)
Definition nops (q : rel6) (x y : N) : bool := of_comparison q (x ?= y).
Definition ops34 (q : rel6) (x y : raw (fussy 3 false)) : out bool := Ret (nops q (x - 3) (y - 3)).
Definition one34 (v : N) : cell (fussy 3 false) := mkcell (C := fussy 3 false) (v + 3 : N) 0 true.
Definition no34 : cell (fussy 3 false) := mkcell (C := fussy 3 false) (0 : N) 0 false.
Lemma one34_inv : forall v, inv (fussy 3 false) (fussy_sem 3 false) (one34 v).
Proof. intros v. split; [|split]; cbn; intros; try discriminate; lia. Qed.
Lemma no34_inv : inv (fussy 3 false) (fussy_sem 3 false) no34.
Proof. split; [|split]; cbn; intros; try discriminate; reflexivity. Qed.
Example C34_ex : lawful (fussy 3 false) (fussy_sem 3 false) /\
  (forall q, computes (fussy_sem 3 false) (fussy_sem 3 false) (ops34 q) (nops q)) /\
  inv (fussy 3 false) (fussy_sem 3 false) (one34 4) /\ inv (fussy 3 false) (fussy_sem 3 false) no34 /\
  consistent nops /\ mirrored nops nops /\
  c_lt (ops34 RLt) (one34 4) (one34 5) = Ret true /\ c_lt (ops34 RLt) no34 (one34 0) = Ret true /\
  c_ge (ops34 RGe) no34 no34 = Ret true /\ c_gt (ops34 RGt) (one34 0) no34 = Ret true.
Proof.
  split; [apply fussy_lawful; unfold umax_base; lia|]. split; [intros q x y _ _; reflexivity|].
  split; [apply one34_inv|]. split; [apply no34_inv|]. split; [intros x y; exists (x ?= y); reflexivity|].
  split; [intros q x y; unfold nops; rewrite (N.compare_antisym x y); apply of_mirror|]. repeat split.
Qed.

(** C35: hashes. *)
Theorem C35_hash : forall W (C : cls W) (S : sem C), lawful C S -> forall h c, inv C S c ->
  c_hash h c = if c_alive c then h (c_raw c) else Ret 0.
Proof. intros W C S L. exact (hash_ok S L). Qed.
Print Assumptions C35_hash.
Theorem C35_equal_hash : forall W (C : cls W) (S : sem C), lawful C S ->
  forall (h : raw C -> out N) (f : V S -> N) (eq : V S -> V S -> bool) op a b,
  (forall r, ok S r -> h r = Ret (f (val S r))) ->
  (forall x y, eq x y = true -> f x = f y) -> computes S S op eq ->
  inv C S a -> inv C S b -> c_eq op a b = Ret true -> c_hash h a = c_hash h b.
Proof. intros W C S L. exact (hash_respects S L). Qed.
Print Assumptions C35_equal_hash.
Theorem C35_reference_hash : forall h p, r_hash h p = Ok (h p).
Proof. exact r_hash_ok. Qed.
Print Assumptions C35_reference_hash.
Definition hash35 (r : raw (fussy 3 false)) : out N := Ret (r * 7).
Example C35_ex : c_hash hash35 (one34 4) = Ret 49 /\ c_hash hash35 no34 = Ret 0 /\
  c_eq (ops34 REq) (one34 4) (one34 4) = Ret true /\ r_hash (fun p => p + 1) 100 = Ok 101 /\ r_hash (fun p => p + 1) 0 = Ok 1.
Proof. repeat split. Qed.

(** C36: iteration. *)
Theorem C36_range : forall W (C : cls W) (S : sem C), lawful C S -> forall o c, inv C S c ->
  exists b e, begin_ o c = Ret b /\ end_ o c = Ret e /\ pointing b /\ pointing e /\
    it_diff e b = Ok (if c_alive c then 1 else 0)%Z /\
    forall St (body : N -> St -> res St) s fuel,
      loop body (Datatypes.S (Datatypes.S fuel)) b e s = Some (if c_alive c then body o s else Ok s) /\
      rloop body (Datatypes.S (Datatypes.S fuel)) e b s = Some (if c_alive c then body o s else Ok s).
Proof. exact loop_ok. Qed.
Print Assumptions C36_range.
Theorem C36_random_access : forall o i n m q, (0 <= i <= 1)%Z -> it_add (IAt o i) n = Ok q ->
  add_it n (IAt o i) = Ok q /\ it_sub q n = Ok (IAt o i) /\ it_diff q (IAt o i) = Ok n /\
  it_add q m = it_add (IAt o i) (n + m) /\
  it_index (IAt o i) n = it_star q /\
  it_lt (IAt o i) q = Ok (0 <? n)%Z /\ it_gt (IAt o i) q = Ok (n <? 0)%Z /\
  it_le (IAt o i) q = Ok (0 <=? n)%Z /\ it_ge (IAt o i) q = Ok (n <=? 0)%Z /\
  it_eq (IAt o i) q = (n =? 0)%Z /\ it_ne (IAt o i) q = negb (n =? 0)%Z.
Proof. exact random_access. Qed.
Print Assumptions C36_random_access.
Theorem C36_add_range : forall o i n q, it_add (IAt o i) n = Ok q <-> (q = IAt o (i + n) /\ (0 <= i + n <= 1)%Z).
Proof. exact add_range. Qed.
Print Assumptions C36_add_range.
Theorem C36_increments : forall p,
  it_inc p = it_add p 1 /\ it_dec p = it_sub p 1 /\
  it_inc_post p = match it_inc p with Ok q => Ok (p, q) | Verify => Verify | UB => UB end /\
  it_dec_post p = match it_dec p with Ok q => Ok (p, q) | Verify => Verify | UB => UB end.
Proof. exact increments. Qed.
Print Assumptions C36_increments.
Theorem C36_null_checked : forall n p,
  it_star INull = Verify /\ it_arrow INull = Verify /\ it_inc INull = Verify /\ it_inc_post INull = Verify /\
  it_dec INull = Verify /\ it_dec_post INull = Verify /\ it_add INull n = Verify /\ add_it n INull = Verify /\
  it_sub INull n = Verify /\ it_index INull n = Verify /\ it_lt INull p = Verify /\ it_gt INull p = Verify /\
  it_lt p INull = Verify /\ it_gt p INull = Verify /\
  it_eq INull INull = true /\ it_diff INull INull = Ok 0%Z /\ it_le INull INull = Ok true /\ it_ge INull INull = Ok true.
Proof. exact null_checked. Qed.
Print Assumptions C36_null_checked.
Theorem C36_arrow : forall p, it_star p = match it_arrow p with Ok q => p_deref q | Verify => Verify | UB => UB end.
Proof. exact arrow_star. Qed.
Print Assumptions C36_arrow.
(** operator<=, operator>= and the difference lack the check that operator< has. *)
Theorem C36_unchecked_refuted : exists p q, is_null p = true /\ is_null q = false /\
  it_lt p q = Verify /\ it_le p q = UB /\ it_ge p q = UB /\ it_diff p q = UB.
Proof. exact (ex_intro _ INull (ex_intro _ (IAt 0 0) (conj eq_refl (conj eq_refl (conj eq_refl (null_unchecked 0 0)))))). Qed.
Print Assumptions C36_unchecked_refuted.
Example C36_ex : begin_ 64 (one34 4) = Ret (IAt 64 0) /\ end_ 64 no34 = Ret INull /\
  it_add (IAt 64 0) 1 = Ok (IAt 64 1) /\ it_star (IAt 64 1) = UB /\ it_add (IAt 64 0) 2 = UB.
Proof. repeat split. Qed.

(** C37: containers. *)
Theorem C37_at : forall A (c : list A) i,
  (forall x, nth_error c (N.to_nat i) = Some x -> at_ c i = Ok (Some i)) /\
  (nth_error c (N.to_nat i) = None -> at_ c i = Ok None).
Proof. exact at_ok. Qed.
Print Assumptions C37_at.
Theorem C37_front_back : forall A (c : list A),
  match c with
  | [] => at_front c = Ok None /\ at_back c = Ok None
  | x :: l => at_front c = Ok (Some 0) /\
      exists i, at_back c = Ok (Some i) /\ nth_error c (N.to_nat i) = Some (last c x) /\ N.succ i = size c
  end.
Proof. exact front_back_ok. Qed.
Print Assumptions C37_front_back.
Theorem C37_lookup : forall K E (same : K -> E -> bool) find c k, finds same find c ->
  (exists i x, lookup find c k = Ok (Some i) /\ nth_error c (N.to_nat i) = Some x /\ same k x = true) \/
  (lookup find c k = Ok None /\ forall x, In x c -> same k x = false).
Proof. exact lookup_ok. Qed.
Print Assumptions C37_lookup.
Theorem C37_lookup_iff : forall K E (same : K -> E -> bool) find c k, finds same find c ->
  ((exists i, lookup find c k = Ok (Some i)) <-> exists x, In x c /\ same k x = true) /\
  (lookup find c k = Ok None <-> forall x, In x c -> same k x = false).
Proof. exact lookup_iff. Qed.
Print Assumptions C37_lookup_iff.
(** A linear search, as an instance of find(). *)
Fixpoint search (c : list (N * N)) (k : N) : N :=
  match c with
  | [] => 0
  | x :: c => if fst x =? k then 0 else N.succ (search c k)
  end.
Lemma search_finds : forall c, finds (fun k x => fst x =? k) search c.
Proof.
  intros c k. induction c as [|x c IH]; [right; split; [reflexivity|intros x []]|].
  cbn [search]. destruct (fst x =? k) eqn:E; [left; exists x; auto|].
  destruct IH as [(y & H1 & H2)|[H1 H2]].
  - left. exists y. rewrite N2Nat.inj_succ. auto.
  - right. split; [unfold size in *; cbn [length]; lia|]. intros y [<-|H]; auto.
Qed.
Example C37_ex : finds (fun k x => fst x =? k) search [(5, 50); (6, 60)] /\
  lookup search [(5, 50); (6, 60)] 6 = Ok (Some 1) /\ lookup search [(5, 50); (6, 60)] 7 = Ok None /\
  at_ [10; 20; 30] 2 = Ok (Some 2) /\ at_ [10; 20; 30] 3 = Ok None /\ at_back [10; 20; 30] = Ok (Some 2) /\
  at_ [10] (2 ^ 64 - 1) = Ok None.
Proof. split; [apply search_finds|]. repeat split. Qed.

(** C38: elements of tuples and variants. *)
Theorem C38_get_index : forall W (C : cls W) (S : sem C), lawful C S -> forall n i c, inv C S c -> (i < n)%nat ->
  get_index n i c = Ret (if c_alive c then Some i else None).
Proof. intros W C S L. exact (get_index_ok S L). Qed.
Print Assumptions C38_get_index.
Theorem C38_get_type : forall W (C : cls W) (S : sem C), lawful C S -> forall t ts c, inv C S c ->
  count_occ PeanoNat.Nat.eq_dec ts t = 1%nat ->
  exists i, get_type t ts c = Ret (if c_alive c then Some i else None) /\ nth_error ts i = Some t /\
            forall j, nth_error ts j = Some t -> j = i.
Proof. intros W C S L. exact (get_type_ok S L). Qed.
Print Assumptions C38_get_type.
Theorem C38_variant_index : forall n i v, (i < n)%nat ->
  variant_get n i v = Ret (match v with Some j => if Nat.eqb i j then Some i else None | None => None end).
Proof. exact variant_get_ok. Qed.
Print Assumptions C38_variant_index.
Theorem C38_variant_type : forall t ts v, count_occ PeanoNat.Nat.eq_dec ts t = 1%nat ->
  (forall j, v = Some j -> (j < length ts)%nat) ->
  exists i, variant_get_type t ts v =
              Ret (match v with
                   | Some j => match nth_error ts j with
                               | Some u => if Nat.eqb u t then Some i else None
                               | None => None
                               end
                   | None => None
                   end) /\
            nth_error ts i = Some t.
Proof. exact variant_get_type_ok. Qed.
Print Assumptions C38_variant_type.
Example C38_ex : get_index 3 2 (one34 4) = Ret (Some 2%nat) /\ get_type 9 [7; 9; 7]%nat (one34 4) = Ret (Some 1%nat) /\
  get_type 9 [7; 9; 7]%nat no34 = Ret None /\ variant_get 3 1 (Some 1%nat) = Ret (Some 1%nat) /\
  variant_get 3 1 (Some 2%nat) = Ret None /\ variant_get_type 9 [7; 9; 7]%nat None = Ret None.
Proof. repeat split. Qed.

(** C39: streams. *)
Theorem C39_output : forall W (C : cls W) (S : sem C), lawful C S -> forall St (c : cell C) (s : St), inv C S c ->
  (c_alive c = true -> forall put, io_out C put c s = put (c_raw c) s) /\
  (c_alive c = false -> forall put, io_out C put c s = Ret s).
Proof. intros W C S L. exact (io_out_ok S L). Qed.
Print Assumptions C39_output.
Theorem C39_output_alternative : forall W (C : cls W) (S : sem C), lawful C S -> forall St (c : cell C) (s : St), inv C S c ->
  (c_alive c = true -> forall put alt, io_out2 C put alt c s = put (c_raw c) s) /\
  (c_alive c = false -> forall put alt, io_out2 C put alt c s = alt s).
Proof. intros W C S L. exact (io_out2_ok S L). Qed.
Print Assumptions C39_output_alternative.
Theorem C39_input : forall W (C : cls W) (S : sem C), lawful C S ->
  forall St A (take : raw C -> St -> out (raw C * St)) (take_alt : A -> St -> out (A * St)) c a s, inv C S c ->
  (c_alive c = true ->
     io_in2 C take take_alt c (a, s) =
     match take (c_raw c) s with
     | Ret (r, s') => Ret (mkcell r (c_flag c) true, (a, s'))
     | Exn (r, s') => Exn (mkcell r (c_flag c) true, (a, s'))
     | Abort => Abort
     | Undef => Undef
     end) /\
  (c_alive c = false ->
     io_in2 C take take_alt c (a, s) =
     match take_alt a s with
     | Ret p => Ret (c, p)
     | Exn p => Exn (c, p)
     | Abort => Abort
     | Undef => Undef
     end).
Proof. intros W C S L. exact (io_in2_ok S L). Qed.
Print Assumptions C39_input.
Example C39_ex :
  let put (r : N) (s : list N) := Ret (s ++ [r]) in
  io_out (fussy 3 false) put (one34 4) [1] = Ret [1; 7] /\ io_out (fussy 3 false) put no34 [1] = Ret [1] /\
  io_out2 (fussy 3 false) put (fun s => Ret (s ++ [0])) no34 [1] = Ret [1; 0] /\
  io_in2 (fussy 3 false) (fun (_ : raw (fussy 3 false)) s => Ret ((hd 0 s + 3 : N) : raw (fussy 3 false), tl s))
    (fun _ s => Ret (hd 0 s, tl s)) (one34 4) (9, [8; 1]) = Ret (one34 8, (9, [1])) /\
  io_in2 (fussy 3 false) (fun (_ : raw (fussy 3 false)) s => Ret ((hd 0 s + 3 : N) : raw (fussy 3 false), tl s))
    (fun _ s => Ret (hd 0 s, tl s)) no34 (9, [8; 1]) = Ret (no34, (8, [1])).
Proof. repeat split. Qed.

(** C40: pointers and reinterpretation. *)
Theorem C40_nullable : forall p, r_ptr_or_null (r_from_nullable p) = Ok p.
Proof. exact nullable_round_trip. Qed.
Print Assumptions C40_nullable.
Theorem C40_nullable_back : forall p q, r_ptr_or_null p = Ok q -> r_from_nullable q = p.
Proof. exact nullable_from_option. Qed.
Print Assumptions C40_nullable_back.
Theorem C40_reference_access : forall p,
  (r_has p = true -> r_get p = Ok p /\ r_get_unchecked p = Ok p /\ r_ptr_or_null p = Ok p /\ forall d, r_value_or d p = Ok p) /\
  (r_has p = false -> r_get p = Verify /\ r_get_unchecked p = Verify /\ r_ptr_or_null p = Ok 0 /\ forall d, r_value_or d p = Ok d).
Proof. exact r_access. Qed.
Print Assumptions C40_reference_access.
Theorem C40_as_option : forall t v junk, wf (TOption t) -> max_level t <> 0 -> sized (sizeof t) v ->
  sized (sizeof (TOption t)) junk ->
  exists b, opt_as_option t v junk = Ok b /\
    (valid t v -> holds t v b) /\
    (get_level t v = Ok 0 -> emptied t b) /\
    (forall l, get_level t v = Ok l -> l <> 0 -> opt_has_value t b = Ok true /\ opt_get t b = Ok v).
Proof. exact as_option_ok. Qed.
Print Assumptions C40_as_option.
Example C40_ex : opt_as_option TPtr64 (le_encode 8 4096) (repeat 5 8) = Ok (le_encode 8 4096) /\
  get_level TPtr64 (le_encode 8 0xF8E1B1825D5D6C67) = Ok 0 /\
  opt_has_value TPtr64 (le_encode 8 0xF8E1B1825D5D6C67) = Ok false /\
  r_ptr_or_null (r_from_nullable 0) = Ok 0.
Proof. repeat split; vm_compute; reflexivity. Qed.
