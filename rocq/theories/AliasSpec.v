(** What calls with references should do: the same as with a copy of the argument made before the call. *)
From Coq Require Import ZArith NArith List Bool.
From Verif Require Import Outcome Words Ints Types OptBytes TypesSpec Lifetime History ByteClass ByteProg ByteProgSpec Alias.
Import ListNotations.

(** q is the object contained in p. *)
Definition contained_in (p q : place) : Prop := fst q = fst p /\ snd q = snd p ++ [Deref].
Definition hop_eq (a b : hop) : {a = b} + {a <> b}.
Proof. decide equality. apply Nat.eq_dec. Defined.
Definition contained_in_dec (p q : place) : {contained_in p q} + {~ contained_in p q}.
Proof.
  destruct (Nat.eq_dec (fst q) (fst p)) as [E|N]; [|right; intros (H & _); auto].
  destruct (list_eq_dec hop_eq (snd q) (snd p ++ [Deref])) as [F|N]; [left; split; assumption|right; intros (_ & H); auto].
Defined.

Section Spec.
Context (env : list (nat * ty)).

(** With a copy of the argument.  emplace must not be given the contained object. *)
Definition rsstep (r : rop) (a : bvars) : sres :=
  match r with
  | RPlain o => sstep (meaning env o) a
  | RNew x q => declare a x (found a q (fun w => sstep (ONew x (Some w)) a))
  | RAssign p q => found a q (fun w => sstep (OAssign p w) a)
  | REmplace p q => if contained_in_dec p q then SWrong else found a q (fun w => sstep (OEmplace p w) a)
  | RTryEmplace p q => found a q (fun w => sstep (OTryEmplace p w) a)
  end.

Fixpoint rsrun (rs : list rop) (a : bvars) : list obs * sres :=
  match rs with
  | [] => ([], SDone a None)
  | r :: rs =>
      match rsstep r a with
      | SDone a' s =>
          let (tr, e) := rsrun rs a' in
          (match s with Some s => s :: tr | None => tr end, e)
      | e => ([], e)
      end
  end.

Definition rtyped (r : rop) : Prop :=
  match r with
  | RPlain o => typed env o
  | RNew x q => exists t, is_option env (x, []) t /\ clear_place env q /\ place_ty env q = Some t
  | RAssign p q | REmplace p q | RTryEmplace p q => exists t, is_option env p t /\ clear_place env q /\ place_ty env q = Some t
  end.
End Spec.
