(** The example programs of the repository, run in the model; what they print is checked by the model of
    examples/check.py against the comments in their sources.

    These are tests of the model, not properties of it.  Numbers are printed as integers or with .5; that is
    all that occurs.  What an iostream prints is accumulated as text; addresses are printed as "(nil)". *)
From Coq Require Import ZArith NArith Bool List Ascii String.
From Verif Require Import Outcome Words Ints Types OptBytes PyText Examples ExamplesSource.
From Verif Require Import Lifetime Api Observe Iter Lookup Tuple RefOpt AsOption Guide GuideSpec.
Import ListNotations.
Open Scope N_scope.
Open Scope list_scope.

(** * Classes: the world is what has been printed *)

(** int: no unused states. *)
Definition int_c : cls text := {|
  raw := Z; init := Z; td := true; tcc := true; tca := true; tmc := true; tma := true; scalar := true;
  ctor := fun i _ w => Ret (i, w);
  cctor := fun s _ w => Ret (s, w);
  mctor := fun _ sw => Ret (fst sw, sw);
  asgn := fun i _ w => Ret (i, w);
  cassign := fun s _ w => Ret (s, w);
  massign := fun _ sw => Ret (fst sw, sw);
  self_cassign := fun r w => Ret (r, w);
  self_massign := fun r w => Ret (r, w);
  swp := fun a bw => Ret (fst bw, (a, snd bw));
  self_swp := fun r w => Ret (r, w);
  dtor := fun r w => Ret (r, w);
  lmax := 0; lget := fun _ => 0; lset := fun _ r => r
|}.
(** float and double, in halves; one of the unused states (None) is enough here. *)
Definition real_c : cls text := {|
  raw := option Z; init := Z; td := true; tcc := true; tca := true; tmc := true; tma := true; scalar := true;
  ctor := fun i _ w => Ret (Some i, w);
  cctor := fun s _ w => Ret (s, w);
  mctor := fun _ sw => Ret (fst sw, sw);
  asgn := fun i _ w => Ret (Some i, w);
  cassign := fun s _ w => Ret (s, w);
  massign := fun _ sw => Ret (fst sw, sw);
  self_cassign := fun r w => Ret (r, w);
  self_massign := fun r w => Ret (r, w);
  swp := fun a bw => Ret (fst bw, (a, snd bw));
  self_swp := fun r w => Ret (r, w);
  dtor := fun r w => Ret (r, w);
  lmax := 1; lget := fun r => match r with None => 0 | Some _ => 1 end; lset := fun _ _ => None
|}.
Definition halves (r : option Z) : Z := match r with Some z => z | None => 0%Z end.

(** Storage before construction. *)
Definition I : cell int_c := mkcell (C := int_c) 77%Z 99 false.
Definition R : cell real_c := mkcell (C := real_c) (Some 77%Z) 99 false.

(** * Printing *)

Fixpoint digits_of (fuel : nat) (n : N) : text :=
  match fuel with
  | O => []
  | S f => (if n <? 10 then [] else digits_of f (n / 10)) ++ [ascii_of_N (48 + n mod 10)]
  end.
Definition print_int (z : Z) : text := (if (z <? 0)%Z then txt "-" else []) ++ digits_of 20 (Z.abs_N z).
Definition print_halves (z : Z) : text := print_int (z / 2) ++ (if (z mod 2 =? 0)%Z then [] else txt ".5").
Definition print_bool (b : bool) : text := txt (if b then "true" else "false").
Definition newline : text := [ascii_of_N 10].

(** * Programs: they run until something goes wrong *)

Definition prog (A : Type) : Type := text -> option (A * text).
Definition ret {A} (a : A) : prog A := fun w => Some (a, w).
Definition bind {A B} (m : prog A) (k : A -> prog B) : prog B := fun w => match m w with Some (a, w') => k a w' | None => None end.
Notation "x <- m ;; k" := (bind m (fun x => k)) (at level 61, m at next level, right associativity).
Notation "m ;;; k" := (bind m (fun _ => k)) (at level 61, right associativity).
Definition say (s : text) : prog unit := fun w => Some (tt, w ++ s).
Definition line (s : text) : prog unit := say (s ++ newline).
Definition call {A} (f : text -> out (A * text)) : prog A := fun w => match f w with Ret (a, w') => Some (a, w') | _ => None end.
Definition look {A} (m : out A) : prog A := fun w => match m with Ret a => Some (a, w) | _ => None end.
Definition sure {A} (m : res A) : prog A := fun w => match m with Ok a => Some (a, w) | _ => None end.
(** A call that changes two things. *)
Definition call2 {A B} (f : B * text -> out (A * (B * text))) (b : B) : prog (A * B) :=
  fun w => match f (b, w) with Ret (a, (b', w')) => Some ((a, b'), w') | _ => None end.

Definition new {C : cls text} (c : cell C) (i : init C) : prog (cell C) := call (o_ctor C (IVal i) c).
Definition empty {C : cls text} (c : cell C) : prog (cell C) := call (o_ctor C INone c).
Definition set {C : cls text} (c : cell C) (i : init C) : prog (cell C) := call (o_asgn C (IVal i) c).
Definition unset {C : cls text} (c : cell C) : prog (cell C) := call (o_asgn C INone c).
Definition print_has {C : cls text} (c : cell C) : prog unit := (b <- sure (o_has C c) ;; line (print_bool b)).
Definition print_value (c : cell int_c) : prog unit := (z <- look (a_get int_c c) ;; line (print_int z)).
Definition print_real (c : cell real_c) : prog unit := (z <- look (a_get real_c c) ;; line (print_halves (halves z))).

(** * examples/operators.cpp *)

Definition or_ (a b : cell int_c) : prog (cell int_c) :=
  call (fun w => match a_or int_c ByCopy ByCopy I a b w with Ret (r, (_, (_, w'))) => Ret (r, w') | _ => Undef end).
Definition xor_ (a b : cell int_c) : prog (cell int_c) :=
  call (fun w => match a_xor int_c ByCopy ByCopy I a b w with Ret (r, (_, (_, w'))) => Ret (r, w') | _ => Undef end).
Definition and_ (a : cell int_c) (b : cell real_c) : prog (cell real_c) :=
  call (fun w => match a_and int_c real_c ByCopy R a (b, w) with Ret (r, (_, w')) => Ret (r, w') | _ => Undef end).

Definition or_operator : prog unit :=
  a <- new I 1%Z ;; b <- new I 2%Z ;;
  r <- or_ a b ;; print_value r ;;;
  a <- unset a ;; r <- or_ a b ;; print_value r ;;;
  b <- unset b ;; r <- or_ a b ;; print_has r ;;;
  p <- call2 (a_value_or int_c ByCopy 10%Z 77%Z) a ;; line (print_int (fst p)) ;;;
  a <- call (a_or_assign int_c (IVal 5%Z) a) ;; print_value a ;;;
  a <- call (a_or_assign int_c (IVal 25%Z) a) ;; print_value a ;;;
  b <- call (a_or_assign_copy int_c a b) ;; print_value b.
Definition and_operator : prog unit :=
  a <- new I 1%Z ;; b <- new R 5%Z ;;
  r <- and_ a b ;; print_real r ;;;
  a <- unset a ;; r <- and_ a b ;; print_has r ;;;
  a <- set a 1%Z ;; b <- unset b ;; r <- and_ a b ;; print_has r.
Definition xor_operator : prog unit :=
  a <- new I 2%Z ;; b <- new I 10%Z ;;
  r <- xor_ a b ;; print_has r ;;;
  a <- unset a ;; r <- xor_ a b ;; print_value r ;;;
  a <- set a 5%Z ;; b <- unset b ;; r <- xor_ a b ;; print_value r ;;;
  a <- unset a ;; b <- unset b ;; r <- xor_ a b ;; print_has r.
Definition operators_main : prog unit := or_operator ;;; and_operator ;;; xor_operator.

(** * examples/methods.cpp *)

(** Callbacks: a predicate on the contained int, a function of it that builds a result. *)
Definition pred (f : Z -> bool) : raw int_c -> text -> out (raw int_c * (bool * text)) := fun r w => Ret (r, (f r, w)).
Definition fn {C D : cls text} (f : raw C -> raw D) : raw D -> raw C * text -> out (raw D * (raw C * text)) := fun _ sw => Ret (f (fst sw), sw).

Definition print_has_value_and (a : cell int_c) : prog unit :=
  b <- call (fun w => match a_has_value_and int_c (pred (fun x => 1 <? x)%Z) a w with Ret (_, (b, w')) => Ret (b, w') | _ => Undef end) ;;
  line (print_bool b).
Definition has_value_and : prog unit :=
  a <- new I 3%Z ;; print_has_value_and a ;;;
  a <- set a 0%Z ;; print_has_value_and a ;;;
  a <- unset a ;; print_has_value_and a.

Definition take : prog unit :=
  a <- new I 1%Z ;; print_has a ;;;
  p <- call2 (o_take int_c true I) a ;; let (b, a) := (p : cell int_c * cell int_c) in
  print_has a ;;; print_value b ;;;
  a <- unset a ;;
  p <- call2 (o_take int_c true I) a ;; let (t, a) := (p : cell int_c * cell int_c) in
  q <- call2 (o_massign int_c b) t ;;
  print_has a ;;; print_has (fst q).

Definition add_one : raw int_c -> text -> out (raw int_c * (bool * text)) := fun x w => Ret ((x + 1)%Z, ((3 <=? x + 1)%Z, w)).
Definition take_if : prog unit :=
  a <- new I 1%Z ;;
  p <- call2 (o_take_if int_c true add_one I) a ;; let (b, a) := (p : cell int_c * cell int_c) in
  print_value a ;;; print_has b ;;;
  p <- call2 (o_take_if int_c true add_one I) a ;; let (t, a) := (p : cell int_c * cell int_c) in
  q <- call2 (o_massign int_c b) t ;;
  print_has a ;;; print_value (fst q).

Definition inspect : prog unit :=
  let show := fun x w => Ret (x, w ++ print_int x ++ newline) in
  let show_real := fun x w => Ret (x, w ++ print_halves (halves x) ++ newline) in
  a <- new I 1%Z ;;
  a <- call (a_inspect int_c show a) ;;
  p <- call2 (a_map int_c int_c (fn (C := int_c) (D := int_c) (fun x => x * 2)%Z) I) a ;;
  b <- call (a_inspect int_c show (fst p)) ;;
  p <- call2 (a_map int_c real_c (fn (C := int_c) (D := real_c) (fun x => Some (2 * (x * 2) + 1))%Z) R) b ;;
  c <- call (a_inspect real_c show_real (fst p)) ;;
  p <- call2 (a_and_then real_c real_c
         (fun d sw => match (if (10 <? halves (fst sw))%Z then o_ctor real_c (IVal (halves (fst sw))) d (snd sw) else o_ctor real_c INone d (snd sw)) with
                      | Ret (d', w) => Ret (d', (fst sw, w)) | _ => Undef end) R) c ;;
  d <- call (a_inspect real_c show_real (fst p)) ;;
  ret tt.

Definition map_or : prog unit :=
  a <- new I 2%Z ;;
  p <- call2 (a_map_or int_c int_c 0%Z (fn (C := int_c) (D := int_c) (fun x => x * 200)%Z) 77%Z) a ;; line (print_int (fst p)) ;;;
  a <- unset a ;;
  p <- call2 (a_map_or int_c int_c 0%Z (fn (C := int_c) (D := int_c) (fun x => x * 2)%Z) 77%Z) a ;; line (print_int (fst p)).

Definition map_or_else : prog unit :=
  a <- new I 3%Z ;;
  p <- call2 (a_map_or_else int_c int_c (fun _ w => Ret (0%Z, w ++ txt "will not print")) (fn (C := int_c) (D := int_c) (fun x => x + 1)%Z) 77%Z) a ;;
  line (print_int (fst p)) ;;;
  a <- unset a ;;
  p <- call2 (a_map_or_else int_c int_c (fun _ w => Ret ((-100)%Z, w ++ txt "will print ")) (fn (C := int_c) (D := int_c) (fun x => x - 2)%Z) 77%Z) a ;;
  line (print_int (fst p)).

Definition ptr_or_null : prog unit :=
  let a := 1000 in
  let b := r_in_place a in
  p <- sure (r_ptr_or_null b) ;; line (print_bool (p =? a)) ;;;
  let b := r_reset b in
  p <- sure (r_ptr_or_null b) ;; line (if p =? nullptr then txt "(nil)" else txt "0x3e8").

Definition odd : Z -> bool := fun x => negb (Z.rem x 2 =? 0)%Z.
Definition filter : prog unit :=
  a <- new I 1%Z ;; p <- call2 (a_filter int_c ByCopy (pred odd) I) a ;; print_value (fst p) ;;;
  a <- set a 2%Z ;; p <- call2 (a_filter int_c ByCopy (pred odd) I) a ;; print_has (fst p) ;;;
  a <- unset a ;; p <- call2 (a_filter int_c ByCopy (pred odd) I) a ;; print_has (fst p).

Definition and_then : prog unit :=
  let do_something (d : cell real_c) (sw : raw int_c * text) :=
    match (if (fst sw =? 0)%Z then o_ctor real_c (IVal 3%Z) d (snd sw) else o_ctor real_c INone d (snd sw)) with
    | Ret (d', w) => Ret (d', (fst sw, w)) | _ => Undef end in
  a <- new I 0%Z ;; p <- call2 (a_and_then int_c real_c do_something R) a ;; print_real (fst p) ;;;
  a <- set a 1%Z ;; p <- call2 (a_and_then int_c real_c do_something R) a ;; print_has (fst p) ;;;
  a <- unset a ;; p <- call2 (a_and_then int_c real_c do_something R) a ;; print_has (fst p).

Definition map : prog unit :=
  let to_float := fn (C := int_c) (D := real_c) (fun x => Some x) in    (* x / 2, in halves *)
  a <- new I 1%Z ;; p <- call2 (a_map int_c real_c to_float R) a ;; print_real (fst p) ;;;
  a <- unset a ;; p <- call2 (a_map int_c real_c to_float R) a ;; print_has (fst p).

Definition or_else : prog unit :=
  let other (s : string) (i : oinit Z) := fun d w => o_ctor int_c i d (w ++ txt s) in
  a <- new I 2%Z ;; p <- call2 (a_or_else int_c ByCopy (other "will not print" (IVal 3%Z)) I) a ;; print_value (fst p) ;;;
  a <- unset a ;; p <- call2 (a_or_else int_c ByCopy (other "will print " (IVal 10%Z)) I) a ;; print_value (fst p) ;;;
  p <- call2 (a_or_else int_c ByCopy (other "will print " INone) I) a ;; print_has (fst p).

(** The contained objects live at address 1. *)
Definition read (c : cell int_c) (o : N) : Z := c_raw c.
Definition over {A} (c : cell int_c) (body : N -> A -> res A) (x : A) : prog A :=
  b <- look (begin_ 1 c) ;; e <- look (end_ 1 c) ;;
  fun w => match loop body 5 b e x with Some (Ok y) => Some (y, w) | _ => None end.
Definition begin : prog unit :=
  a <- new I 1%Z ;;
  b <- look (begin_ 1 a) ;; o <- sure (it_star b) ;; line (print_int (read a o)) ;;;
  (* the loop prints x, sets it to 2 and prints it again *)
  t <- over a (fun _ (s : Z * text) => Ok (2%Z, snd s ++ print_int (fst s) ++ newline ++ print_int 2 ++ newline)) (c_raw a, []) ;;
  say (snd t) ;;;
  a <- unset a ;;
  t <- over a (fun _ (s : text) => Ok (s ++ txt "something")) [] ;; say t ;;;
  b <- new I 123%Z ;;     (* stands for the array 1, 2, 3 *)
  t <- over b (fun _ (s : text) => Ok (s ++ txt "1 2 3 " ++ newline)) [] ;; say t.
Definition end_example : prog unit :=
  a <- new I 1%Z ;;
  b <- look (begin_ 1 a) ;; e <- look (end_ 1 a) ;;
  o <- sure (it_star b) ;; line (print_int (read a o)) ;;;
  p <- sure (it_dec e) ;; o <- sure (it_star p) ;; line (print_int (read a o)) ;;;
  line (print_bool (it_eq b e)) ;;;
  p <- sure (it_add b 1) ;; line (print_bool (it_eq p e)) ;;;
  a <- unset a ;;
  b <- look (begin_ 1 a) ;; e <- look (end_ 1 a) ;; line (print_bool (it_eq b e)).

Definition methods_main : prog unit :=
  has_value_and ;;; take ;;; take_if ;;; inspect ;;; map_or ;;; map_or_else ;;; ptr_or_null ;;; filter ;;; and_then ;;;
  map ;;; or_else ;;; begin ;;; end_example.

(** * examples/functions.cpp *)

Definition gnu : shape := mkshape true false.
Definition ird : list (cls text) := [int_c; real_c; real_c].
Definition tuple3 : cls text := tuple_cls gnu ird.
Definition T3 : raw tuple3 := (77%Z, (Some 77%Z, (Some 77%Z, tt))).
Definition zip : prog unit :=
  a <- new I 1%Z ;; b <- new R 4%Z ;; c <- new R 6%Z ;;
  abc <- empty (mkcell (C := tuple3) T3 99 false) ;;
  p <- call2 (a_zip gnu ird [ByCopy; ByCopy; ByCopy] T3 (mkcell (C := tuple3) T3 99 false)) ((a, (b, (c, tt))) : cells ird) ;;
  p <- call2 (o_massign tuple3 abc) (fst p) ;; let abc := fst p in print_has abc ;;;
  a <- unset a ;;
  p <- call2 (a_zip gnu ird [ByCopy; ByCopy; ByCopy] T3 (mkcell (C := tuple3) T3 99 false)) ((a, (b, (c, tt))) : cells ird) ;;
  p <- call2 (o_massign tuple3 abc) (fst p) ;; print_has (fst p).

Definition zip_with : prog unit :=
  let ir := [int_c; real_c] in
  let add_and_print : raws ir * text -> out (raws ir * text) :=
    fun sw => Ret (fst sw, snd sw ++ print_halves (2 * fst (fst sw) + halves (fst (snd (fst sw))))%Z ++ newline) in
  a <- new I 10%Z ;; b <- new R 10%Z ;;
  call (fun w => a_zip_do ir add_and_print ((a, (b, tt)) : cells ir, w)) ;;;
  a <- unset a ;;
  call (fun w => a_zip_do ir add_and_print ((a, (b, tt)) : cells ir, w)) ;;; ret tt.

Definition option_cast : prog unit :=
  let truncate (r : raw real_c) : init int_c := Z.quot (halves r) 2 in
  a <- new R 5%Z ;; b <- empty I ;;
  p <- call2 (a_cast real_c int_c truncate I) a ;; p <- call2 (o_massign int_c b) (fst p) ;; let b := fst p in print_value b ;;;
  a <- unset a ;;
  p <- call2 (a_cast real_c int_c truncate I) a ;; p <- call2 (o_massign int_c b) (fst p) ;; print_has (fst p).

(** Elements of the pair in the option: get<0> and get<int> name the same one. *)
Definition get : prog unit :=
  let ir := tuple_cls gnu [int_c; real_c] in
  a <- call (o_build ir (fun _ w => Ret ((1%Z, (Some 4%Z, tt)) : raw ir, w)) (mkcell (C := ir) (77%Z, (Some 77%Z, tt)) 99 false)) ;;
  k <- look (get_index 2 0 a) ;;
  a <- match k with
       | Some 0%nat => line (print_int (fst (c_raw a : Z * (option Z * unit)))) ;;;
                       call (o_with_value ir (fun r w => Ret ((2%Z, snd (r : Z * (option Z * unit))) : raw ir, w)) a)
       | _ => fun _ => None
       end ;;
  k <- look (get_type 0 [0; 1]%nat a) ;;
  match k with Some 0%nat => line (print_int (fst (c_raw a : Z * (option Z * unit)))) | _ => fun _ => None end ;;;
  (* the variant: the alternative and its value, in halves *)
  let c : variant * Z := (Some 0%nat, 246%Z) in
  k <- look (variant_get_type 0 [0; 1]%nat (fst c)) ;;
  match k with Some 0%nat => line (print_halves (snd c)) | _ => ret tt end ;;;
  let c : variant * Z := (Some 1%nat, 4%Z) in
  k <- look (variant_get_type 1 [0; 1]%nat (fst c)) ;;
  match k with Some 1%nat => line (print_halves (snd c)) | _ => ret tt end.

Definition hash : prog unit :=
  let h (x : raw int_c) := Ret (Z.to_N x) in
  a <- new I 12345%Z ;; n <- look (c_hash h a) ;; line (print_int (Z.of_N n)) ;;;
  a <- unset a ;; n <- look (c_hash h a) ;; line (print_int (Z.of_N n)).

Definition put_int (x : raw int_c) (w : text) : out text := Ret (w ++ print_int x).
Definition io1 (c : cell int_c) : prog unit := call (fun w => match io_out int_c put_int c w with Ret w' => Ret (tt, w') | _ => Undef end).
Definition io2 (c : cell int_c) : prog unit :=
  call (fun w => match io_out2 int_c put_int (fun w => Ret (w ++ txt "empty")) c w with Ret w' => Ret (tt, w') | _ => Undef end).
Definition io : prog unit :=
  a <- empty I ;; io1 a ;;; say newline ;;; io2 a ;;; say newline ;;;
  a <- set a 1%Z ;; io1 a ;;; say newline ;;; io2 a ;;; say newline.

(** option<int&> compared with an int: the element it refers to. *)
Definition print_at (v : list Z) (i : N) (x : Z) : prog unit :=
  k <- sure (at_ v i) ;; line (print_bool (match k with Some j => (nth (N.to_nat j) v 0 =? x)%Z | None => false end)).
Definition at_example : prog unit :=
  let a := [10; 11; 12; 13; 14]%Z in
  print_at a 0 10 ;;; print_at a 5 15 ;;;
  let a := [1; 2]%Z in
  print_at a 0 1 ;;; print_at a 1 2 ;;; print_at a 2 3.

(** The levels from the inside out; an inner option inside an engaged one. *)
Definition some_cell (C : cls text) (r : raw C) : cell C := mkcell r 1 true.
Definition print_flat (C : cls text) (n : nat) (c : raw (nest_cls (S n) C)) : prog unit :=
  k <- look (a_flatten C n c) ;; line (print_bool (match k with Some _ => true | None => false end)).
Definition flatten : prog unit :=
  let O1 := nest_cls 1 int_c in
  i <- new I 1%Z ;;
  a <- call (o_build O1 (fun _ w => Ret (i, w)) (mkcell (C := O1) I 99 false)) ;;
  k <- look (a_flatten int_c 1 a) ;; line (print_int (match k with Some x => x | None => 0%Z end)) ;;;
  a <- call (o_with_value O1 (fun r w => o_asgn int_c INone r w) a) ;; print_flat int_c 1 a ;;;
  a <- call (o_asgn O1 INone a) ;; print_flat int_c 1 a ;;;
  let P1 := nest_cls 1 real_c in let P2 := nest_cls 2 real_c in
  f <- new R 4%Z ;;
  g <- call (o_build P1 (fun _ w => Ret (f, w)) (mkcell (C := P1) R 99 false)) ;;
  c <- call (o_build P2 (fun _ w => Ret (g, w)) (mkcell (C := P2) (mkcell (C := P1) R 99 false) 99 false)) ;;
  k <- look (a_flatten real_c 2 c) ;; line (print_halves (match k with Some x => halves x | None => 0%Z end)) ;;;
  c <- call (o_with_value P2 (fun d w => o_with_value P1 (fun r w => o_asgn real_c INone r w) d w) c) ;; print_flat real_c 2 c ;;;
  c <- call (o_with_value P2 (fun d w => o_asgn P1 INone d w) c) ;; print_flat real_c 2 c ;;;
  c <- call (o_asgn P2 INone c) ;; print_flat real_c 2 c.

Definition unzip : prog unit :=
  let Cs := [int_c; real_c] in let ir := tuple_cls gnu Cs in
  a <- call (o_build ir (fun _ w => Ret ((1%Z, (Some 5%Z, tt)) : raw ir, w)) (mkcell (C := ir) (77%Z, (Some 77%Z, tt)) 99 false)) ;;
  p <- call2 (a_unzip false gnu Cs ByCopy ((I, (R, tt)) : raw (tuple_cls gnu (opts Cs))) ((I, (R, tt)) : raw (tuple_cls gnu (opts Cs)))) a ;;
  let u : cell int_c * (cell real_c * unit) := fst p in
  print_value (fst u) ;;; print_real (fst (snd u)) ;;;
  let Cs := [int_c; int_c; int_c] in let iii := tuple_cls gnu Cs in
  b <- empty (mkcell (C := iii) (77%Z, (77%Z, (77%Z, tt))) 99 false) ;;
  p <- call2 (a_unzip true gnu Cs ByMove ((I, (I, (I, tt))) : raw (tuple_cls gnu (opts Cs))) ((I, (I, (I, tt))) : raw (tuple_cls gnu (opts Cs)))) b ;;
  let u : cell int_c * (cell int_c * (cell int_c * unit)) := fst p in
  x <- sure (o_has int_c (fst u)) ;; y <- sure (o_has int_c (fst (snd u))) ;; z <- sure (o_has int_c (fst (snd (snd u)))) ;;
  line (print_bool (negb x && negb y && negb z)).

(** my_type with the unused value 100, on bytes. *)
Definition int_bytes (z : Z) : bytes := int_encode int32 (wrap int32 z).
Definition show_x (b : bytes) : prog unit :=
  h <- sure (opt_has_value hundred b) ;;
  if h then v <- sure (opt_get hundred b) ;; line (print_int (load int32 0 v)) else line (txt "empty").
Definition as_option_example : prog unit :=
  a <- sure (opt_as_option hundred (int_bytes 1) [9; 9; 9; 9]) ;; show_x a ;;;
  b <- sure (opt_as_option hundred (int_bytes 100) [9; 9; 9; 9]) ;;
  a <- sure (opt_assign true hundred b a) ;; show_x a.

Definition functions_main : prog unit :=
  zip ;;; zip_with ;;; option_cast ;;; get ;;; hash ;;; io ;;; at_example ;;; flatten ;;; unzip ;;; as_option_example.

(** * examples/option_traits.cpp *)

Definition junk (n : nat) : bytes := repeat 171 n.
Definition same_size (t : ty) : prog unit := line (print_bool (Nat.eqb (sizeof (TOption t)) (sizeof t))).
Definition print_int_at (off : nat) (v : bytes) : prog unit := line (print_int (load int32 off v)).
Definition print_bytes_has (t : ty) (b : bytes) : prog unit := h <- sure (opt_has_value t b) ;; line (print_bool h).
Definition custom : prog unit :=
  a <- sure (opt_construct some_struct (int_bytes 5) (junk 4)) ;;
  same_size some_struct ;;; v <- sure (opt_get some_struct a) ;; print_int_at 0 v ;;;
  a <- sure (opt_reset true some_struct a) ;; print_bytes_has some_struct a ;;; print_int_at 0 (slice 0 4 a).
(** sentinel_option_traits with the value 0 *)
Definition zero_t : ty := TSentinel {| iw := 4; isg := false |} [0]%Z.
Definition using_sentinel : prog unit :=
  a <- sure (opt_construct zero_t (int_bytes 5) (junk 4)) ;;
  same_size zero_t ;;; v <- sure (opt_get zero_t a) ;; print_int_at 0 v ;;;
  a <- sure (opt_reset true zero_t a) ;; print_int_at 0 (slice 0 4 a) ;;;
  a <- sure (opt_assign_value false zero_t (int_bytes 1) a) ;; v <- sure (opt_get zero_t a) ;; print_int_at 0 v ;;;
  a <- sure (opt_put zero_t (int_bytes 0) a) ;; print_bytes_has zero_t a.
(** x at 0, y at 8, PADDING at 12 *)
Definition padded_t : ty := TPadding 16 8 12 1.
Definition with_padding : prog unit :=
  a <- sure (opt_construct padded_t (le_encode 8 1 ++ le_encode 4 2 ++ [0; 0; 0; 0]) (junk 16)) ;;
  same_size padded_t ;;; v <- sure (opt_get padded_t a) ;;
  line (txt "x = " ++ print_int (Z.of_N (le_decode (slice 0 8 v))) ++ txt " y = " ++ print_int (Z.of_N (le_decode (slice 8 4 v)))).
Definition option_traits_main : prog unit := custom ;;; using_sentinel ;;; with_padding.

(** * The check *)

Definition file (ls : list string) : text := flat_map (fun l => txt l ++ newline) ls.
Definition outcome (main : prog unit) : run_result :=
  match main [] with
  | Some (_, w) => mkrun 0 w
  | None => mkrun (-6) []
  end.

Definition sources : list text := [file methods_cpp; file operators_cpp; file functions_cpp; file option_traits_cpp].
Definition programs : list run_result := [outcome methods_main; outcome operators_main; outcome functions_main; outcome option_traits_main].

Example methods_example : check_one (file methods_cpp) (outcome methods_main) = Good.
Proof. vm_compute. reflexivity. Qed.
Example operators_example : check_one (file operators_cpp) (outcome operators_main) = Good.
Proof. vm_compute. reflexivity. Qed.
Example functions_example : check_one (file functions_cpp) (outcome functions_main) = Good.
Proof. vm_compute. reflexivity. Qed.
Example option_traits_example : check_one (file option_traits_cpp) (outcome option_traits_main) = Good.
Proof. vm_compute. reflexivity. Qed.
Example all_examples : succeeds sources programs = true.
Proof. vm_compute. reflexivity. Qed.
