(** What the Visual Studio debugger shows for an option.

    Models: debugger/option.natvis, every Type element, as a function from the bytes of the option to
    what is displayed.  The MSVC build of include/opt/option.hpp is meant. *)
From Coq Require Import NArith String List Bool Arith.
From Verif Require Import Outcome Words Ints Types OptBytes.
Import ListNotations.
Open Scope N_scope.

(** What is displayed. *)
Inductive display : Type :=
  | Shows (none : bool)      (* "[none]", or the value *)
  | Asks                     (* the value together with the answer of has_value(), line 188 *)
  | Unresolved               (* the expression names a member that does not exist *)
  | Outside.                 (* the expression reads beyond the object *)

(** A condition on an integer of n bytes at an offset. *)
Definition test (off n : nat) (b : bytes) (f : N -> bool) : display :=
  if (off + n <=? length b)%nat then Shows (f (read_word off n b)) else Outside.
Definition both (x y : display) (f : bool -> bool -> bool) : display :=
  match x, y with
  | Shows p, Shows q => Shows (f p q)
  | _, _ => Outside
  end.

(** Lines 3-11, 12-20, 21-29: bool, option<bool>, option<option<bool>>. *)
Definition show_bool (k : nat) (b : bytes) : display := test 0 1 b (N.eqb (2 + N.of_nat k)).

(** 31-57: reference_wrapper. *)
Definition show_wrapper (p k : nat) (b : bytes) : display := test 0 p b (N.eqb (N.of_nat k)).

(** 59-60 and 96-97. *)
Definition sNaN32_start : N := 0xFFBF69AF.
Definition qNaN32_start : N := 0xFFC3EFB5.
Definition sNaN64_start : N := 0xFFF6C79F55B0898F.
Definition qNaN64_start : N := 0xFFFBF26430BB3557.

(** 62-94: float. *)
Definition show_float (k : nat) (b : bytes) : display :=
  both (test 0 4 b (N.eqb (sNaN32_start + N.of_nat k))) (test 0 4 b (N.eqb (qNaN32_start + N.of_nat k))) orb.

(** 99-131: double.  Line 114 reads the second operand as uint32_t. *)
Definition show_double (k : nat) (b : bytes) : display :=
  both (test 0 8 b (N.eqb (sNaN64_start + N.of_nat k)))
       (test 0 (if (k =? 1)%nat then 4 else 8)%nat b (N.eqb (qNaN64_start + N.of_nat k))) orb.

(** 133-174: basic_string; [n] is sizeof(base::value). *)
Definition show_string (n k : nat) (b : bytes) : display :=
  let capacity := if (n =? 40)%nat then 32%nat else 24%nat in
  let size := if (n =? 40)%nat then 24%nat else 16%nat in
  match k with
  | O => test capacity 8 b (N.eqb 0)
  | _ => both (test capacity 8 b (N.eqb 0)) (test size 8 b (N.eqb (N.of_nat k))) andb
  end.

(** 176-193: every other option.  The last character of the name of T tells pointers and references;
    a condition on a member that does not exist is skipped (Optional). *)
Definition show_pointer (p : nat) (b : bytes) : display := test 0 p b (N.eqb 0xF8E1B1825D5D6C67).
Definition show_reference (p : nat) (b : bytes) : display := test 0 p b (N.eqb 0).
Definition show_flag (off : nat) (b : bytes) : display := test off 1 b (N.eqb 0).
Definition show_other (k : nat) (t : ty) (b : bytes) : display :=
  if max_level (nest k t) =? 0 then show_flag (sizeof (nest k t)) b else Asks.

(** 199-229: sentinel.  The wrapped object is called value there; in option.hpp 3900 it is called m. *)
Definition named_in_natvis : string := "value".
Definition named_in_header : string := "m".
Definition show_sentinel (x : display) : display :=
  if String.eqb named_in_natvis named_in_header then x else Unresolved.

(** An option whose value has type nest k t, t not itself an option; p is the size of a pointer.  The
    entries with enforce<T> as AlternativeType serve both.  The name of a pointer to a data member ends
    with a star as well; MSVC gives it 4 bytes, so TMemPtr32 is taken to be one, and TMemPtr64 a pointer
    to a member function. *)
Fixpoint shown (p k : nat) (t : ty) (b : bytes) {struct t} : display :=
  match t with
  | TEnforce u => shown p k u b
  | TBool => if (k <=? 2)%nat then show_bool k b else show_other k t b
  | TRefWrap _ => if (k <=? 2)%nat then show_wrapper p k b else show_other k t b
  | TFloat32 _ => if (k <=? 2)%nat then show_float k b else show_other k t b
  | TFloat64 _ => if (k <=? 2)%nat then show_double k b else show_other k t b
  | TString _ _ => if (k <=? 2)%nat then show_string (sizeof (nest k t)) k b else show_other k t b
  | TPtr64 | TPtr32 | TMemPtr32 => if (k =? 0)%nat then show_pointer p b else show_other k t b
  | TSentinel it vals =>
      if (k <=? 2)%nat then
        match nth_error vals k with
        | Some v => show_sentinel (test 0 (iw it) b (fun x => x =? le_decode (Ints.int_encode it v)))
        | None => show_other k t b
        end
      else show_other k t b
  | _ => show_other k t b
  end.
