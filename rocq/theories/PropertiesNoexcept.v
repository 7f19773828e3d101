(** C94: functions declared noexcept and exceptions.  C95: swap of an option<T> with an option<U>. *)
From Coq Require Import NArith ZArith Bool List Lia.
From Verif Require Import Outcome Words Types Lifetime LifetimeSpec LifetimeFacts Select SelectSpec SelectFacts
  Noexcept NoexceptSpec NoexceptFacts NoexceptClasses Classes ClassesFacts.
Import ListNotations.
Open Scope N_scope.

(** * C94 *)

(** The copy and move members: whatever the traits of T, the noexcept specification of option<T>'s
    member never ends the program, as long as the traits tell the truth about T. *)
Theorem C94_special : forall W (C : cls W) (S : sem C), lawful C S ->
  forall f k m, coherent f = true -> f_ref f = false -> truthful C S f ->
  option_member f k = Chosen m -> honest C S k (is_noexcept m).
Proof. exact @special_honest. Qed.
Print Assumptions C94_special.
Example C94_special_ex :
  lawful (picky 3 true false) (picky_sem 3 true false) /\ truthful (picky 3 true false) (picky_sem 3 true false) (picky_flags true false) /\
  coherent (picky_flags true false) = true /\
  option_member (picky_flags true false) MoveAssign = Chosen (Custom true) /\
  option_member (picky_flags true false) CopyAssign = Chosen (Custom false) /\
  o_massign (picky 3 true false) (pc 3 true false 7 1 true) (pc 3 true false 5 1 true, [true]) = Ret (pc 3 true false 5 1 true, (pc 3 true false 5 1 true, [true])) /\
  o_cassign (picky 3 true false) (pc 3 true false 5 1 true) (pc 3 true false 7 1 true) [true] = Exn (pc 3 true false 7 1 true, []).
Proof.
  split; [apply picky_lawful; reflexivity|]. split; [apply picky_truthful|]. repeat split.
Qed.

(** And a member that is not noexcept does throw on some options, if T's operations do. *)
Theorem C94_special_exact : forall W (C : cls W) (S : sem C), lawful C S -> quiet C S -> blind C ->
  forall f k m, coherent f = true -> f_ref f = false -> describes f C -> exacting C S f ->
  option_member f k = Chosen m -> is_deleted m = false -> is_noexcept m = false -> throws C S k.
Proof. exact @special_throws. Qed.
Print Assumptions C94_special_exact.
Example C94_special_exact_ex :
  lawful (picky 3 true true) (picky_sem 3 true true) /\ quiet (picky 3 true true) (picky_sem 3 true true) /\
  blind (picky 3 true true) /\ describes (picky_flags true true) (picky 3 true true) /\
  exacting (picky 3 true true) (picky_sem 3 true true) (picky_flags true true) /\
  option_member (picky_flags true true) MoveCtor = Chosen (Custom false).
Proof.
  split; [apply picky_lawful; reflexivity|]. split; [apply picky_quiet|]. split; [apply picky_blind|].
  split; [apply picky_describes|]. split; [apply picky_exacting|]. reflexivity.
Qed.

(** The traits of option<T> tell the truth again, at every depth of nesting. *)
Theorem C94_nested : forall W n (C : cls W) (S : sem C) f, describes f C -> coherent f = true -> regular f = true ->
  (forall k, (k < n)%nat -> lawful (nest_cls k C) (nest_sem k C S)) ->
  truthful C S f -> truthful (nest_cls n C) (nest_sem n C S) (nest_flags n f).
Proof. exact nest_truthful. Qed.
Print Assumptions C94_nested.
Example C94_nested_ex :
  regular (picky_flags true false) = true /\
  f_nmc (nest_flags 3 (picky_flags true false)) = true /\ f_ncc (nest_flags 3 (picky_flags true false)) = false /\
  forall k, (k < 2)%nat -> lawful (nest_cls k (picky 3 true false)) (nest_sem k (picky 3 true false) (picky_sem 3 true false)).
Proof.
  split; [reflexivity|]. split; [reflexivity|]. split; [reflexivity|]. intros k Hk.
  assert (HL : lawful (picky 3 true false) (picky_sem 3 true false)) by (apply picky_lawful; reflexivity).
  destruct k as [|[|k]]; [exact HL| |lia]. apply opt_lawful; [exact HL|apply picky_quiet].
Qed.

(** reset(), the destructor, option(none) and operator=(none): nothing comes out, whatever the
    storage holds and even if T's destructor throws (then the program ends). *)
Theorem C94_reset : forall W (C : cls W) (S : sem C), lawful C S -> forall c w,
  silent (o_reset C c w) /\ silent (o_dtor C c w) /\ silent (o_ctor C INone c w) /\ silent (o_asgn C INone c w).
Proof.
  exact (fun W C S L c w => conj (reset_silent C S L c w) (conj (dtor_silent C c w) (none_silent C S L c w))).
Qed.
Print Assumptions C94_reset.
Example C94_reset_ex :
  lawful (fussy 3 false) (fussy_sem 3 false) /\ o_reset (fussy 3 false) (mkcell (7 : raw (fussy 3 false)) 0 true) [true] = Ret (mkcell (0 : raw (fussy 3 false)) 0 false, [true]).
Proof. split; [apply fussy_lawful; reflexivity|reflexivity]. Qed.

(** swap of two option<T>, with the specification of 2640-2647. *)
Theorem C94_swap : forall W (C : cls W) (S : sem C) f ns, lawful C S -> truthful C S f ->
  (ns = true -> swap_silent C S) ->
  (forall a b w, inv C S a -> inv C S b ->
    declared (nothrow_swap f f ns) (o_swap C a (b, w)) = o_swap C a (b, w)) /\
  (forall a w, inv C S a -> declared (nothrow_swap f f ns) (o_self_swap C a w) = o_self_swap C a w).
Proof. exact swap_honest. Qed.
Print Assumptions C94_swap.
Example C94_swap_ex :
  truthful (picky 3 true false) (picky_sem 3 true false) (picky_flags true false) /\ swap_silent (picky 3 true false) (picky_sem 3 true false) /\
  nothrow_swap (picky_flags true false) (picky_flags true false) true = true /\
  nothrow_swap (picky_flags true true) (picky_flags true true) true = false /\
  o_swap (picky 3 true false) (pc 3 true false 7 0 true) (pc 3 true false 0 0 false, [true]) = Ret (pc 3 true false 0 0 false, (pc 3 true false 7 0 true, [true])) /\
  loud (o_swap (picky 3 true true) (pc 3 true true 7 0 true) (pc 3 true true 0 0 false, [true])).
Proof. split; [apply picky_truthful|]. split; [apply picky_swaps|]. repeat split. now eexists. Qed.

(** swap of an option<T> and an option<U>: it is safe if also the conversions do not throw ... *)
Theorem C94_mixed : forall W (C D : cls W) (S : sem C) (R : sem D) X, lawful C S -> lawful D R ->
  cross_silent S R X -> forall a b w, inv C S a -> inv D R b -> silent (x_swap X a (b, w)).
Proof. exact mixed_silent. Qed.
Print Assumptions C94_mixed.
(** ... and their exceptions come out ... *)
Theorem C94_mixed_exact : forall W (C D : cls W) (S : sem C) (R : sem D) X, lawful C S -> lawful D R ->
  forall a b w, inv C S a -> inv D R b ->
  (c_alive a = true -> c_alive b = false -> loud (to_right X (c_raw b) (c_raw a, w)) -> loud (x_swap X a (b, w))) /\
  (c_alive a = false -> c_alive b = true -> loud (to_left X (c_raw a) (c_raw b, w)) -> loud (x_swap X a (b, w))).
Proof.
  exact (fun W C D S R X LC LD a b w Ha Hb => conj (mixed_right_loud W C D S R X LC LD a b w Ha Hb)
                                                   (mixed_left_loud W C D S R X LC LD a b w Ha Hb)).
Qed.
Print Assumptions C94_mixed_exact.
(** ... but the specification (and the documentation, reference.md 1036) does not ask about them: T
    and U can be moved and swapped without exceptions, and yet swap ends the program. *)
Theorem C94_mixed_refuted : exists (C D : cls schedule) (S : sem C) (R : sem D) (X : cross C D) f g a b w,
  lawful C S /\ lawful D R /\ truthful C S f /\ truthful D R g /\
  (forall a b w, ok S a -> ok R b -> silent (exchange X a (b, w))) /\
  nothrow_swap f g true = true /\ inv C S a /\ inv D R b /\
  loud (x_swap X a (b, w)) /\ declared (nothrow_swap f g true) (x_swap X a (b, w)) = Abort.
Proof.
  exists (picky 3 false false), (picky 2 false false), (picky_sem 3 false false), (picky_sem 2 false false), (converters 3 2),
    (picky_flags false false), (picky_flags false false), (pc 3 false false 7 0 true), (pc 2 false false 0 0 false), [true].
  split; [apply picky_lawful; reflexivity|]. split; [apply picky_lawful; reflexivity|].
  split; [apply picky_truthful|]. split; [apply picky_truthful|].
  split; [intros a b w _ _ p; discriminate|]. split; [reflexivity|].
  split; [split; [|split]; cbn; intros; try discriminate; lia|]. split; [split; [|split]; cbn; intros; try discriminate; reflexivity|].
  split; [now eexists|reflexivity].
Qed.
Print Assumptions C94_mixed_refuted.

(** at(container, index), at_front, at_back: noexcept without a condition.  They are safe exactly if
    nothing that they call can throw. *)
Theorem C94_at_exact : forall W E (k : container W E) i w, silent (at_body k i w) <->
  silent (k_size k w) /\
  (forall n w1, k_size k w = Ret (n, w1) -> i < n ->
     silent (k_index k i w1) /\ (forall e w2, k_index k i w1 = Ret (e, w2) -> silent (k_store k e w2))).
Proof. exact @at_exact. Qed.
Print Assumptions C94_at_exact.
Theorem C94_front_exact : forall W E (k : container W E) w, silent (front_body k w) <->
  silent (k_size k w) /\
  (forall n w1, k_size k w = Ret (n, w1) -> n <> 0 ->
     silent (k_front k w1) /\ (forall e w2, k_front k w1 = Ret (e, w2) -> silent (k_store k e w2))).
Proof. exact (fun W E k => end_exact k (k_front k)). Qed.
Print Assumptions C94_front_exact.
Theorem C94_back_exact : forall W E (k : container W E) w, silent (back_body k w) <->
  silent (k_size k w) /\
  (forall n w1, k_size k w = Ret (n, w1) -> n <> 0 ->
     silent (k_back k w1) /\ (forall e w2, k_back k w1 = Ret (e, w2) -> silent (k_store k e w2))).
Proof. exact (fun W E k => end_exact k (k_back k)). Qed.
Print Assumptions C94_back_exact.
(** A container whose operator[], front() and back() make objects, like a lazy view of strings, with a
    schedule of failing allocations. *)
Definition view (l : list N) : container schedule N := mkcontainer
  (fun w => Ret (N.of_nat (length l), w))
  (fun i w => may_throw w 0 (nth (N.to_nat i) l 0))
  (fun w => may_throw w 0 (hd 0 l))
  (fun w => may_throw w 0 (last l 0))
  (fun e w => Ret (e, w)).
Theorem C94_at_refuted : exists (k : container schedule N) w,
  at_call k 1 w = Abort /\ front_call k w = Abort /\ back_call k w = Abort /\
  at_call k 1 [] = Ret (Some 6, []) /\ front_call k [] = Ret (Some 5, []) /\ back_call k [] = Ret (Some 7, []).
Proof. exists (view [5; 6; 7]), [true]. repeat split. Qed.
Print Assumptions C94_at_refuted.
Example C94_at_ex : silent (at_body (view [5; 6; 7]) 3 [true]) /\ silent (at_body (view [5; 6; 7]) 2 [false]) /\
  loud (at_body (view [5; 6; 7]) 2 [true]) /\ silent (front_body (view []) [true]) /\ silent (back_body (view []) [true]).
Proof. repeat split; try (intros p; discriminate). now eexists. Qed.

(** opt::sentinel: has_value() and everything else that asks for the level ends the program exactly if
    a comparison does not return before a sentinel has been found; set_level exactly if the assignment
    of that sentinel does not return or there is no such sentinel. *)
Theorem C94_sentinel_exact : forall A (eq : A -> out bool) vals i,
  scan eq i vals = Abort <->
  exists pre v post, vals = pre ++ v :: post /\ (forall u, In u pre -> eq u = Ret false) /\ (loud (eq v) \/ eq v = Abort).
Proof. exact @scan_aborts. Qed.
Print Assumptions C94_sentinel_exact.
Theorem C94_sentinel_first : forall A (eq : A -> out bool) vals i pre v post, vals = pre ++ v :: post ->
  (forall u, In u pre -> eq u = Ret false) ->
  scan eq i vals =
    match eq v with
    | Ret true => Ret (i + N.of_nat (length pre))
    | Ret false => scan eq (i + N.of_nat (length pre)) (v :: post)
    | Exn _ => Abort
    | Abort => Abort
    | Undef => Undef
    end.
Proof. exact @scan_spec. Qed.
Print Assumptions C94_sentinel_first.
Theorem C94_sentinel_plain : forall (eq : Z -> out bool) x, (forall v, eq v = Ret (x =? v)%Z) ->
  forall vals i, scan eq i vals = Ret (sentinel_get_impl i vals x).
Proof. exact scan_plain. Qed.
Print Assumptions C94_sentinel_plain.
Theorem C94_sentinel_set : forall A R (set : A -> out R) vals i l,
  put set i vals l = Abort <->
  match nth_error vals (N.to_nat (l - i)) with
  | Some v => if i <=? l then loud (set v) \/ set v = Abort else True
  | None => True
  end.
Proof. exact @put_aborts. Qed.
Print Assumptions C94_sentinel_set.
(** has_value(): false exactly if the value equals the first sentinel; the end of the program exactly if a
    comparison before the first equal sentinel does not return; otherwise true. *)
Theorem C94_sentinel_has : forall A (eq : A -> out bool) v vals,
  (sentinel_has eq (v :: vals) = Ret false <-> eq v = Ret true) /\
  (sentinel_has eq (v :: vals) = Abort <->
    exists pre u post, v :: vals = pre ++ u :: post /\ (forall w, In w pre -> eq w = Ret false) /\ (loud (eq u) \/ eq u = Abort)) /\
  ((forall u, In u (v :: vals) -> exists b, eq u = Ret b) -> eq v = Ret false -> sentinel_has eq (v :: vals) = Ret true).
Proof. exact @has_values. Qed.
Print Assumptions C94_sentinel_has.
(** A value whose comparison with the second of two sentinels throws: has_value() ends the program,
    although comparing with the first does not. *)
Theorem C94_sentinel_refuted : exists (eq : Z -> out bool) vals,
  sentinel_has eq vals = Abort /\ loud (eq 1%Z) /\ eq 0%Z = Ret false /\ vals = [0; 1]%Z.
Proof.
  exists (fun v => if (v =? 0)%Z then Ret false else Exn false), [0; 1]%Z.
  split; [reflexivity|]. split; [now eexists|]. split; reflexivity.
Qed.
Print Assumptions C94_sentinel_refuted.
Example C94_sentinel_ex : scan (fun v => Ret (7 =? v)%Z) 0 [3; 7; 9]%Z = Ret 1 /\
  sentinel_has (fun v => Ret (7 =? v)%Z) [3; 7; 9]%Z = Ret true /\ sentinel_has (fun v => Ret (3 =? v)%Z) [3; 7; 9]%Z = Ret false /\
  put (fun v : Z => Ret v) 0 [3; 7; 9]%Z 2 = Ret 9%Z /\ put (fun v : Z => Ret v) 0 [3; 7; 9]%Z 3 = Abort.
Proof. repeat split. Qed.

(** * C95 *)

(** swap of an option<T> with an option<U>: each gets what the other had, converted; an exception
    leaves both options as full or empty as they were.  It ends the program only if T or U does. *)
Theorem C95_swap : forall W (C D : cls W) (S : sem C) (R : sem D) X to fro, lawful C S -> lawful D R ->
  cross_lawful S R X (stops S \/ stops R) to fro ->
  forall a b w, inv C S a -> inv D R b ->
  post (stops S \/ stops R) (x_swap X a (b, w))
    (fun p => inv C S (fst p) /\ inv D R (fst (snd p)) /\
              carried to (oval C S a) (oval D R (fst (snd p))) /\ carried fro (oval D R b) (oval C S (fst p)))
    (fun p => inv C S (fst p) /\ inv D R (fst (snd p)) /\ c_alive (fst p) = c_alive a /\ c_alive (fst (snd p)) = c_alive b).
Proof. exact mixed_ok. Qed.
Print Assumptions C95_swap.
Example C95_swap_ex :
  cross_lawful (picky_sem 3 false false) (picky_sem 2 false false) (converters 3 2)
    (stops (picky_sem 3 false false) \/ stops (picky_sem 2 false false)) (fun x y : N => x = y) (fun x y : N => x = y) /\
  x_swap (converters 3 2) (pc 3 false false 7 0 true) (pc 2 false false 0 0 false, []) = Ret (pc 3 false false 0 0 false, (pc 2 false false 6 0 true, [])) /\
  x_swap (converters 3 2) (pc 3 false false 0 0 false) (pc 2 false false 6 0 true, []) = Ret (pc 3 false false 7 0 true, (pc 2 false false 0 0 false, [])) /\
  x_swap (converters 3 2) (pc 3 false false 7 0 true) (pc 2 false false 9 0 true, [true]) = Ret (pc 3 false false 10 0 true, (pc 2 false false 6 0 true, [true])) /\
  x_swap (converters 3 2) (pc 3 false false 7 0 true) (pc 2 false false 0 0 false, [true]) = Exn (pc 3 false false 7 0 true, (pc 2 false false 0 0 false, [])).
Proof. split; [apply converters_lawful|]. repeat split. Qed.

(** With U = T it is the swap of C23. *)
Theorem C95_same : forall W (C : cls W) a bw, x_swap (same_cross C) a bw = o_swap C a bw.
Proof. exact mixed_same. Qed.
Print Assumptions C95_same.
