(** Property C80: arguments that are references into the same memory, perhaps to the contained object. *)
From Coq Require Import ZArith NArith List Bool Lia.
From Verif Require Import Outcome Words Ints Types OptBytes TypesSpec Lifetime LifetimeSpec History ByteClass ByteProg ByteProgSpec Alias AliasSpec AliasFacts FindingsFacts PropertiesBytes.
Import ListNotations.
Open Scope N_scope.

(** C80: programs whose calls are given references to objects anywhere in memory do what they would do with copies of
    these objects made before each call, provided that emplace is not given the contained object. *)
Theorem C80_references : forall k env n, laid_out env n -> forall rs m a,
  sized n m -> represents env m a -> Forall (rtyped env) rs ->
  match rsrun env rs a with
  | (tr, SDone a' _) => exists m', rrun k env rs m = (tr, Ok m') /\ sized n m' /\ represents env m' a' /\
      forall i, elsewhere env i -> nth_error m' i = nth_error m i
  | (tr, SStop) => rrun k env rs m = (tr, Verify)
  | (_, SWrong) => True
  end.
Proof. exact rrun_ok. Qed.
Print Assumptions C80_references.

(** C80: emplace given the contained object.  The value survives if the option has a separate flag; without one a
    check fails, as reset() has overwritten what the reference refers to.  For a T with a destructor the
    behaviour is undefined. *)
Theorem C80_emplace_own : forall k env n, laid_out env n -> forall p q t m a v w, (0 < sizeof t)%nat ->
  sized n m -> represents env m a -> is_option env p t -> contained_in p q ->
  nth_error a (fst p) = Some (Some v) -> vget (snd p) v = Some (VSome w) ->
  if t_td (k t) then
    if max_level t =? 0 then exists m', rstep k env (REmplace p q) m = Ok (m', None) /\ sized n m' /\ represents env m' a /\
      forall i, elsewhere env i -> nth_error m' i = nth_error m i
    else rstep k env (REmplace p q) m = Verify
  else rstep k env (REmplace p q) m = UB.
Proof. exact emplace_own. Qed.
Print Assumptions C80_emplace_own.

(** C80: by the rules of the language the argument is dead in every case, also where its bytes survive. *)
Theorem C80_emplace_own_refuted : forall W (C : cls W) (S : sem C), lawful C S -> forall c w, inv C S c ->
  match o_emplace_self C c w with
  | Undef => True
  | Abort => stops S
  | _ => False
  end.
Proof. exact emplace_self_undefined. Qed.
Print Assumptions C80_emplace_own_refuted.

(** No object of type T shares bytes with an option<T>, except the contained one. *)
Theorem C80_apart : forall env n, laid_out env n -> forall p q t,
  is_option env p t -> clear_place env q -> place_ty env q = Some t -> ~ contained_in p q ->
  (base env p + sizeof (TOption t) <= base env q \/ base env q + sizeof t <= base env p)%nat.
Proof. exact (places_apart (fun _ => mktriv true true true true true false)). Qed.
Print Assumptions C80_apart.

(** option<pair<option<bool>, T*>> x at 4; option<option<bool>> y at 0, option<bool> z at 1. *)
Definition alias_ops : list rop := [
  RPlain (ONew 0 (Some ([1; 9; 9; 9; 9; 9; 9; 9] ++ ex_ptr)));
  RAssign (0%nat, []) (0%nat, [Deref]);                               (* x = *x; *)
  RNew 1 (0%nat, [Deref; Field 0%nat]);                               (* option<option<bool>> y(x->first); *)
  RPlain (ONew 2 None);
  REmplace (2%nat, []) (0%nat, [Deref; Field 0%nat; Deref]);          (* z.emplace( *x->first ); *)
  RTryEmplace (2%nat, []) (2%nat, [Deref]);
  RPlain (OGet (2%nat, [])); RPlain (OHas (1%nat, [Deref])) ].
Example C80_ex_hyps : Forall (rtyped ex_env) alias_ops.
Proof.
  destruct C53_ex_hyps as (_ & H & _). inversion H as [|? ? H0 _]; subst.
  assert (is_option ex_env (0%nat, []) ex_pair) by (split; [exact I|reflexivity]).
  assert (is_option ex_env (1%nat, []) (TOption TBool)) by (split; [exact I|reflexivity]).
  assert (is_option ex_env (2%nat, []) TBool) by (split; [exact I|reflexivity]).
  assert (clear_place ex_env (0%nat, [Deref; Field 0%nat])) by (split; [exact ex_apart|exact I]).
  assert (clear_place ex_env (0%nat, [Deref; Field 0%nat; Deref])) by (split; [exact ex_apart|exact I]).
  unfold alias_ops. repeat (apply Forall_cons; [cbn [rtyped]|]); [..|apply Forall_nil].
  - exact H0.
  - exists ex_pair. repeat split; auto.
  - exists (TOption TBool). split; [assumption|]. split; [assumption|reflexivity].
  - cbn. eauto.
  - exists TBool. split; [assumption|]. split; [assumption|reflexivity].
  - exists TBool. repeat split; auto.
  - cbn. eauto.
  - cbn. eauto.
Qed.
Example C80_ex_run :
  rrun (fun _ => ex_triv) ex_env alias_ops (repeat 173 20) =
    ([SeenValue (VBytes [1]); SeenHas true], snd (rrun (fun _ => ex_triv) ex_env alias_ops (repeat 173 20))) /\
  rsrun ex_env alias_ops [None; None; None] = ([SeenValue (VBytes [1]); SeenHas true],
    SDone [Some (VSome (VTup [VSome (VBytes [1]); VBytes ex_ptr])); Some (VSome (VSome (VBytes [1]))); Some (VSome (VBytes [1]))] None).
Proof. split; vm_compute; reflexivity. Qed.

(** The three outcomes of a.emplace applied to what a contains: option<bool>, option<int>, a class with a destructor. *)
Definition own_env : list (nat * ty) := [(0%nat, TOption TBool); (4%nat, TOption (TOpaque 4 4))].
Definition own_memory : bytes := [1; 9; 9; 9; 5; 6; 7; 8; 1; 9; 9; 9].
Definition with_destructor : triviality := mktriv false false false false false false.
Example C80_own_ex :
  rstep (fun _ => ex_triv) own_env (REmplace (0%nat, []) (0%nat, [Deref])) own_memory = Verify /\
  rstep (fun _ => ex_triv) own_env (REmplace (1%nat, []) (1%nat, [Deref])) own_memory = Ok (own_memory, None) /\
  rstep (fun _ => with_destructor) own_env (REmplace (1%nat, []) (1%nat, [Deref])) own_memory = UB /\
  rstep (fun _ => ex_triv) own_env (RAssign (0%nat, []) (0%nat, [Deref])) own_memory = Ok (own_memory, None).
Proof. repeat split; vm_compute; reflexivity. Qed.
Example C80_own_contained : contained_in (0%nat, []) (0%nat, [Deref]) /\ laid_out own_env 12 /\
  represents own_env own_memory [Some (VSome (VBytes [1])); Some (VSome (VBytes [5; 6; 7; 8]))].
Proof.
  split; [split; reflexivity|]. split; [split|].
  - intros x o u H. destruct x as [|[|x]]; cbn in H; try (destruct x; discriminate); injection H as <- <-.
    + split; [|vm_compute; lia]. cbn; repeat split; right; vm_compute; congruence.
    + split; [|vm_compute; lia]. split; [repeat split; (lia || (exists 1%nat; reflexivity))|left; reflexivity].
  - intros x y o u o' u' Hne H H'.
    destruct x as [|[|x]]; cbn in H; try (destruct x; discriminate); injection H as <- <-;
    destruct y as [|[|y]]; cbn in H'; try (destruct y; discriminate); injection H' as <- <-; try lia; vm_compute; lia.
  - split; [reflexivity|]. intros x o u v H H'. destruct x as [|[|x]]; cbn in H; try (destruct x; discriminate); injection H as <- <-; cbn in H'; injection H' as <-.
    + split; [|vm_compute; reflexivity]. split; [apply bytes_ok_sized; vm_compute; reflexivity|]. right. split; [vm_compute; reflexivity|].
      split; [apply bytes_ok_sized; vm_compute; reflexivity|]. right. vm_compute. reflexivity.
    + split; [|vm_compute; reflexivity]. split; [apply bytes_ok_sized; vm_compute; reflexivity|]. right. split; [vm_compute; reflexivity|].
      apply bytes_ok_sized; vm_compute; reflexivity.
Qed.
