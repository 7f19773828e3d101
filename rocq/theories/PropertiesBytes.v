(** Properties of the byte-level and the object-level description of option together.  Statements only: each
    theorem is closed by [exact], with its assumptions printed, and examples that meet the hypotheses. *)
From Coq Require Import ZArith NArith List Bool Lia.
From Verif Require Import Outcome Words Ints Types OptBytes TypesSpec Lifetime LifetimeSpec History HistorySpec.
From Verif Require Import ByteClass ByteClassFacts ByteProg ByteProgSpec ByteProgFacts ByteCopyFacts BytesLemmas FindingsFacts.
Import ListNotations.
Open Scope N_scope.

(** Example types: pair<option<bool>, T*>, with the pointer at offset 8. *)
Definition ex_pair : ty := TPair 0 (TOption TBool) 8 TPtr64 16 8.
Definition ex_triv : triviality := mktriv true true true true true false.

(** C51: every type of the universe, nested in options to any depth, obeys the rules for classes ... *)
Theorem C51_types_are_classes : forall W k t n, wf t -> sane k ->
  lawful (nest_cls n (byte_cls W k t)) (nest_sem n (byte_cls W k t) (byte_sem W k t)) /\
  steady (nest_cls n (byte_cls W k t)) (nest_sem n (byte_cls W k t) (byte_sem W k t)).
Proof. exact nest_class. Qed.
Print Assumptions C51_types_are_classes.

(** ... so any program over such options acts as on mathematical optionals, and stops only on access to an
    empty option. *)
Theorem C51_programs : forall W k t n, wf t -> sane k ->
  let C := nest_cls n (byte_cls W k t) in
  let S := nest_sem n (byte_cls W k t) (byte_sem W k t) in
  forall os l w, healthy C S l -> Forall (fair C S) os ->
  match run C S os l w with
  | HDone ks l' w' => healthy C S l' /\ runs C S os ks (values C S l) (values C S l')
  | HAbort ks => exists os1 o os2 a, os = os1 ++ o :: os2 /\ runs C S os1 ks (values C S l) a /\ misuse C S o a
  | HUndef => False
  | HBad => True
  end.
Proof. exact nest_programs. Qed.
Print Assumptions C51_programs.

Lemma ex_pair_wf : wf ex_pair.
Proof.
  cbn. unfold wf_layout. repeat split; try lia. all: try (exists 2%nat; lia). all: right; vm_compute; congruence.
Qed.
Example C51_ex : wf ex_pair /\ sane ex_triv /\ max_level ex_pair = 512 /\
  lmax (nest_cls 3 (byte_cls unit ex_triv ex_pair)) = 509.
Proof.
  split; [exact ex_pair_wf|]. split; [repeat split; reflexivity|]. split; vm_compute; reflexivity.
Qed.

(** C52: storage contents and bytes.  Every byte string of the right size is the contents of some storage, every
    value is a proper object, and the user sees the object's value in the bytes. *)
Theorem C52_onto : forall W k t n, wf (nest n t) -> sane k -> forall b,
  (sized (sizeof (nest n t)) b -> exists r, nest_repr n (byte_cls W k t) t (byte_repr k t) r b) /\
  (valid (nest n t) b -> exists r, nest_repr n (byte_cls W k t) t (byte_repr k t) r b /\
                                   ok (nest_sem n (byte_cls W k t) (byte_sem W k t)) r).
Proof. exact nest_onto. Qed.
Print Assumptions C52_onto.

Theorem C52_value : forall W k t n, wf (nest n t) -> sane k -> forall r b,
  nest_repr n (byte_cls W k t) t (byte_repr k t) r b -> ok (nest_sem n (byte_cls W k t) (byte_sem W k t)) r ->
  decode (nest n t) b = show W k t n (LifetimeSpec.val (nest_sem n (byte_cls W k t) (byte_sem W k t)) r).
Proof. exact nest_decode. Qed.
Print Assumptions C52_value.

Example C52_ex : wf (nest 3 ex_pair).
Proof. cbn [nest]. do 3 (split; [|right; vm_compute; congruence]). exact ex_pair_wf. Qed.

Section Agreement.
Context (W : Type) (k : triviality) (t : ty) (n : nat).
Notation C := (nest_cls n (byte_cls W k t)).
Notation S := (nest_sem n (byte_cls W k t) (byte_sem W k t)).
Notation R := (nest_repr n (byte_cls W k t) t (byte_repr k t)).
Notation u := (nest n t).

(** C52: the members of option<T>, for T a type of the universe in n layers of option. *)
Theorem C52_has_value : wf (TOption u) -> sane k ->
  forall c b, inv C S c -> opt_repr u R c b -> opt_has_value u b = o_has C c.
Proof. intros Hw Hk. exact (has_agrees C S u R Hw (proj2 (nest_ok W k t n (proj1 Hw) Hk))). Qed.

Theorem C52_default : wf (TOption u) -> sane k -> forall c b, opt_repr u R c b ->
  exists c' b', o_default C c = Ret c' /\ opt_default u b = Ok b' /\ opt_repr u R c' b'.
Proof.
  intros Hw Hk. exact (default_agrees C S u R (proj1 (nest_ok W k t n (proj1 Hw) Hk)) Hw (proj2 (nest_ok W k t n (proj1 Hw) Hk))).
Qed.

Theorem C52_reset : wf (TOption u) -> sane k -> forall c b w, inv C S c -> opt_repr u R c b ->
  exists c' b', o_reset C c w = Ret (c', w) /\ opt_reset (td C) u b = Ok b' /\ opt_repr u R c' b'.
Proof. exact (nest_reset W k t n). Qed.

Theorem C52_construct : wf (TOption u) -> sane k ->
  forall X (mk : raw C -> X -> out (raw C * X)) (c : cell C) b r v x x',
  opt_repr u R c b -> td C = true \/ c_alive c = false ->
  mk (c_raw c) x = Ret (r, x') -> R r v -> ok S r \/ none_pattern C r ->
  match o_construct C mk c x with
  | Ret (c', x1) => x1 = x' /\ exists b', opt_construct u v b = Ok b' /\ opt_repr u R c' b'
  | Abort => opt_construct u v b = Verify
  | _ => False
  end.
Proof. intros Hw Hk. exact (construct_agrees C S u R Hw (proj2 (nest_ok W k t n (proj1 Hw) Hk))). Qed.

Theorem C52_assign : wf (TOption u) -> sane k ->
  forall i (c : cell C) b r v (w w' : W), inv C S c -> opt_repr u R c b -> R r v -> ok S r ->
  (if negb (scalar C) && c_alive c then asgn C i else ctor C i) (c_raw c) w = Ret (r, w') ->
  match o_asgn C (IVal i) c w with
  | Ret (c', w1) => w1 = w' /\ exists b', opt_assign_value (scalar C) u v b = Ok b' /\ opt_repr u R c' b'
  | _ => False
  end.
Proof.
  intros Hw Hk. exact (assign_agrees C S u R (proj1 (nest_ok W k t n (proj1 Hw) Hk)) Hw (proj2 (nest_ok W k t n (proj1 Hw) Hk))).
Qed.

Theorem C52_emplace : wf (TOption u) -> sane k ->
  forall i (c c1 : cell C) b r v (w w' : W), inv C S c -> opt_repr u R c b -> R r v -> ok S r ->
  o_reset C c w = Ret (c1, w) -> ctor C i (c_raw c1) w = Ret (r, w') ->
  exists c' b', o_emplace C (o_reset C) (ctor C i) c w = Ret (c', w') /\ opt_emplace (td C) u v b = Ok b' /\
                opt_repr u R c' b'.
Proof.
  intros Hw Hk. exact (emplace_agrees C S u R (proj1 (nest_ok W k t n (proj1 Hw) Hk)) Hw (proj2 (nest_ok W k t n (proj1 Hw) Hk))).
Qed.

Theorem C52_try_emplace : wf (TOption u) -> sane k ->
  forall i (c : cell C) b r v (w w' : W), inv C S c -> opt_repr u R c b -> R r v -> ok S r ->
  ctor C i (c_raw c) w = Ret (r, w') ->
  exists c' b', o_try_emplace C i c w = Ret (c', if c_alive c then w else w') /\ opt_try_emplace u v b = Ok b' /\
                opt_repr u R c' b'.
Proof.
  intros Hw Hk. exact (try_emplace_agrees C S u R (proj1 (nest_ok W k t n (proj1 Hw) Hk)) Hw (proj2 (nest_ok W k t n (proj1 Hw) Hk))).
Qed.

Theorem C52_get : wf (TOption u) -> sane k -> forall c b, inv C S c -> opt_repr u R c b ->
  opt_get u b = if c_alive c then Ok (slice 0 (sizeof u) b) else Verify.
Proof.
  intros Hw Hk. exact (get_agrees C S u R (proj1 (nest_ok W k t n (proj1 Hw) Hk)) Hw (proj2 (nest_ok W k t n (proj1 Hw) Hk))).
Qed.

(** C52: constructing j somes around nothing or around a T, in one go or inside out. *)
Theorem C52_build : forall j i w, wf u -> sane k -> (j <= n)%nat ->
  forall (r : raw C) junk, R r junk ->
  exists r' b, ctor C (nest_init W k t n j i) r w = Ret (r', w) /\
    build n t j (content (proj1_sig i)) junk = Ok b /\ R r' b.
Proof. exact (nest_build W k t n). Qed.
End Agreement.
Print Assumptions C52_has_value.
Print Assumptions C52_default.
Print Assumptions C52_reset.
Print Assumptions C52_construct.
Print Assumptions C52_assign.
Print Assumptions C52_emplace.
Print Assumptions C52_try_emplace.
Print Assumptions C52_get.
Print Assumptions C52_build.

(** C52: copies, moves and swaps of options of a T that is copied by its bytes. *)
Section CopyAgreement.
Context (W : Type) (k : ty -> triviality) (t : ty).
Notation C := (byte_cls W (k t) t).
Notation S := (byte_sem W (k t) t).
Notation Ro := (opt_repr t (byte_repr (W := W) (k t) t)).

Theorem C52_copy : wf (TOption t) -> sane (k t) -> forall src c bs b w,
  inv C S src -> Ro src bs -> Ro c b ->
  exists c' b', o_cctor C src c w = Ret (c', w) /\ copy_ctor k t bs b = Ok b' /\ Ro c' b'.
Proof. exact (cctor_agrees W k t). Qed.

Theorem C52_copy_assign : wf (TOption t) -> sane (k t) -> forall src c bs b w,
  inv C S src -> inv C S c -> Ro src bs -> Ro c b ->
  exists c' b', o_cassign C src c w = Ret (c', w) /\ copy_assign k t bs b = Ok b' /\ Ro c' b'.
Proof. exact (cassign_agrees W k t). Qed.

Theorem C52_move_assign : wf (TOption t) -> sane (k t) -> forall src c bs b w,
  inv C S src -> inv C S c -> Ro src bs -> Ro c b ->
  exists c' b', o_massign C c (src, w) = Ret (c', (src, w)) /\
    (if t_tmc (k t) && (t_tma (k t) && t_td (k t)) then Ok bs else opt_assign (t_td (k t)) t bs b) = Ok b' /\
    Ro c' b'.
Proof. exact (massign_agrees W k t). Qed.

Theorem C52_take : wf (TOption t) -> sane (k t) -> forall src c bs b w,
  inv C S src -> Ro src bs -> Ro c b ->
  exists c' src' b' bs', o_take C true c (src, w) = Ret (c', (src', w)) /\
    take_result k t bs b = Ok b' /\ opt_reset (t_td (k t)) t bs = Ok bs' /\ Ro c' b' /\ Ro src' bs'.
Proof. exact (take_agrees W k t). Qed.

Theorem C52_swap : wf (TOption t) -> sane (k t) -> forall x y bx b_y w,
  inv C S x -> inv C S y -> Ro x bx -> Ro y b_y ->
  exists x' y' bx' by', o_swap C x (y, w) = Ret (x', (y', w)) /\
    opt_swap (t_td (k t)) t bx b_y = Ok (bx', by') /\ Ro x' bx' /\ Ro y' by'.
Proof. exact (swap_agrees W k t). Qed.
End CopyAgreement.
Print Assumptions C52_copy.
Print Assumptions C52_copy_assign.
Print Assumptions C52_move_assign.
Print Assumptions C52_take.
Print Assumptions C52_swap.

(** C53: a program over options anywhere in memory shows what the same program over values shows, never does
    anything undefined, and leaves the values that the latter leaves; other bytes stay. *)
Theorem C53_programs : forall k env n, laid_out env n -> forall os m a,
  sized n m -> represents env m a -> Forall (typed env) os ->
  match srun (map (meaning env) os) a with
  | (tr, SDone a' _) => exists m', brun k env os m = (tr, Ok m') /\ sized n m' /\ represents env m' a' /\
      forall i, elsewhere env i -> nth_error m' i = nth_error m i
  | (tr, SStop) => brun k env os m = (tr, Verify)
  | (_, SWrong) => True
  end.
Proof. exact brun_ok. Qed.
Print Assumptions C53_programs.

(** C53: any memory will do at the start, when nothing is declared. *)
Theorem C53_start : forall env m, represents env m (repeat None (length env)).
Proof. exact represents_start. Qed.
Print Assumptions C53_start.

(** option<pair<option<bool>, T*>> x at 4; option<option<bool>> y at 0 (one byte). *)
Definition ex_env : list (nat * ty) := [(4%nat, TOption ex_pair); (0%nat, TOption (TOption TBool)); (1%nat, TOption TBool)].
Definition ex_ptr : bytes := le_encode 8 0x7FFF12345678.
Definition ex_ops : list (op bytes) := [
  ONew 0 (Some ([1; 9; 9; 9; 9; 9; 9; 9] ++ ex_ptr));   (* x = {true, p} *)
  OGet (0%nat, [Deref; Field 0%nat]);
  OReset (0%nat, [Deref; Field 0%nat]);                 (* x->first.reset(); *)
  OHas (0%nat, []); OHas (0%nat, [Deref; Field 0%nat]);
  ONew 1 None; OEmplace (1%nat, []) [2];                (* y = some(none) *)
  OHas (1%nat, []);
  OSwap (0%nat, [Deref; Field 0%nat]) (1%nat, [Deref]);
  OAssign (0%nat, [Deref; Field 0%nat]) [0];
  OCopyAssign (1%nat, [Deref]) (0%nat, [Deref; Field 0%nat]);
  OTake 2 (1%nat, [Deref]); OGet (2%nat, []); OHas (1%nat, [Deref]);
  OReset (1%nat, []); OGet (1%nat, [Deref]) ].

Lemma ex_apart : apart ex_pair.
Proof.
  intros i j oi ti oj tj Hne Hi Hj. unfold field in *. cbn [fields ex_pair] in *.
  destruct i as [|[|i]], j as [|[|j]]; cbn in Hi, Hj; try (destruct i; discriminate); try (destruct j; discriminate);
    try lia; injection Hi as <- <-; injection Hj as <- <-; cbn; lia.
Qed.

Example C53_ex_hyps : laid_out ex_env 20 /\ Forall (typed ex_env) ex_ops /\ sized 20 (repeat 173 20).
Proof.
  pose proof ex_pair_wf as Hp. split; [split|split].
  - intros x o u H. destruct x as [|[|[|x]]]; cbn in H; try (destruct x; discriminate); injection H as <- <-.
    + split; [|vm_compute; lia]. split; [exact Hp|]. right. vm_compute. congruence.
    + split; [|vm_compute; lia]. cbn; repeat split; right; vm_compute; congruence.
    + split; [|vm_compute; lia]. cbn; repeat split; right; vm_compute; congruence.
  - intros x y o u o' u' Hne H H'.
    destruct x as [|[|[|x]]]; cbn in H; try (destruct x; discriminate); injection H as <- <-;
    destruct y as [|[|[|y]]]; cbn in H'; try (destruct y; discriminate); injection H' as <- <-; try lia; vm_compute; lia.
  - assert (is_option ex_env (0%nat, [Deref; Field 0%nat]) TBool) as H1 by (split; [split; [exact ex_apart|exact I]|reflexivity]).
    assert (is_option ex_env (0%nat, []) ex_pair) as H0 by (split; [exact I|reflexivity]).
    assert (is_option ex_env (1%nat, []) (TOption TBool)) as H2 by (split; [exact I|reflexivity]).
    assert (is_option ex_env (1%nat, [Deref]) TBool) as H3 by (split; [exact I|reflexivity]).
    assert (is_option ex_env (2%nat, []) TBool) as H4 by (split; [exact I|reflexivity]).
    assert (valid ex_pair ([1; 9; 9; 9; 9; 9; 9; 9] ++ ex_ptr)) as V1.
    { cbn [ex_pair valid]. split; [apply bytes_ok_sized; vm_compute; reflexivity|]. split.
      - split; [apply bytes_ok_sized; vm_compute; reflexivity|]. right. split; [vm_compute; reflexivity|].
        split; [apply bytes_ok_sized; vm_compute; reflexivity|]. right. vm_compute. reflexivity.
      - split; [apply bytes_ok_sized; vm_compute; reflexivity|]. left. vm_compute. reflexivity. }
    assert (valid (TOption TBool) [2]) as V2.
    { split; [apply bytes_ok_sized; vm_compute; reflexivity|]. left. vm_compute. reflexivity. }
    assert (valid TBool [0]) as V3.
    { split; [apply bytes_ok_sized; vm_compute; reflexivity|]. left. vm_compute. reflexivity. }
    repeat constructor; cbn [typed]; eauto 6.
  - apply bytes_ok_sized. vm_compute. reflexivity.
Qed.

(** The last call reads through the emptied y. *)
Example C53_ex_run :
  brun (fun _ => ex_triv) ex_env ex_ops (repeat 173 20) =
    ([SeenValue (VBytes [1]); SeenHas true; SeenHas false; SeenHas true; SeenValue (VBytes [0]); SeenHas false], Verify) /\
  snd (srun (map (meaning ex_env) (removelast ex_ops)) [None; None; None]) =
    SDone [Some (VSome (VTup [VSome (VBytes [0]); VBytes ex_ptr])); Some VNone; Some (VSome (VBytes [0]))] None.
Proof. split; vm_compute; reflexivity. Qed.
