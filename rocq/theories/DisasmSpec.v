(** What the parser of the disassembly has to find, stated on words, signs and lines. *)
From Coq Require Import ZArith NArith Bool List Ascii String.
From Verif Require Import PyText Codegen Asm ExamplesSpec.
Import ListNotations.
Open Scope N_scope.
Open Scope list_scope.

(** p occurs in s. *)
Definition occurs (p s : text) : Prop := exists a b, s = a ++ p ++ b.

(** Letters, digits and the underscore. *)
Definition letters : text := txt "abcdefghijklmnopqrstuvwxyzABCDEFGHIJKLMNOPQRSTUVWXYZ0123456789_".
Definition digit_chars : text := txt "0123456789".

(** * Names of functions *)

(** A way to match the pattern <.*?(\S+)\(.*\)> at the start of the line: p is skipped, n is the name. *)
Definition candidate (line p n : text) : Prop :=
  exists t, line = "<"%char :: p ++ n ++ "("%char :: t /\ occurs (txt ")>") t /\
    n <> [] /\ forall c, In c n -> is_space c = false.
(** The pattern prefers a short p and then a long n. *)
Definition heading (line n : text) : Prop :=
  exists p, candidate line p n /\
    (forall p' n', candidate line p' n' -> (List.length p <= List.length p')%nat) /\
    (forall n', candidate line p n' -> (List.length n' <= List.length n)%nat).

(** * Words and signs *)

Inductive token : Type := Word (w : text) | Sign (c : ascii).
Definition show (t : token) : text := match t with Word w => w | Sign c => [c] end.
Definition shown (ts : list token) : text := flat_map show ts.

(** The words of a text are as long as possible. *)
Inductive tokens : text -> list token -> Prop :=
| no_tokens : tokens [] []
| sign_token c s ts : ~ In c letters -> tokens s ts -> tokens (c :: s) (Sign c :: ts)
| word_token w s ts : w <> [] -> (forall c, In c w -> In c letters) -> (forall c r, s = c :: r -> ~ In c letters) ->
    tokens s ts -> tokens (w ++ s) (Word w :: ts).

Definition decimal (w : text) : Prop := forall c, In c w -> In c digit_chars.

(** h is n in hexadecimal notation, as Asm.v reads it, without superfluous zeros. *)
Definition in_hex (n : N) (h : text) : Prop :=
  exists d, h = txt "0x" ++ d /\ d <> [] /\ hex_digits 0 d = Some n /\ (forall r, d = "0"%char :: r -> r = []).

(** Decimal numbers are rewritten in hexadecimal, except for one that follows a rewritten number and a single sign. *)
Inductive hexed : list token -> list token -> Prop :=
| hexed_end : hexed [] []
| hexed_sign c ts us : hexed ts us -> hexed (Sign c :: ts) (Sign c :: us)
| hexed_word w ts us : ~ decimal w -> hexed ts us -> hexed (Word w :: ts) (Word w :: us)
| hexed_number w h ts us : decimal w -> in_hex (digits_value w) h ->
    (forall c x r, ts <> Sign c :: Word x :: r) -> hexed ts us -> hexed (Word w :: ts) (Word h :: us)
| hexed_next w h c x ts us : decimal w -> in_hex (digits_value w) h ->
    hexed ts us -> hexed (Word w :: Sign c :: Word x :: ts) (Word h :: Sign c :: Word x :: us).

(** No decimal number follows another one and a single sign; then all of them are rewritten. *)
Definition lone (ts : list token) : Prop := forall a w c x b, ts = a ++ Word w :: Sign c :: Word x :: b -> decimal w -> ~ decimal x.
Inductive all_hexed : list token -> list token -> Prop :=
| all_end : all_hexed [] []
| all_other t ts us : (forall w, t = Word w -> ~ decimal w) -> all_hexed ts us -> all_hexed (t :: ts) (t :: us)
| all_number w h ts us : decimal w -> in_hex (digits_value w) h -> all_hexed ts us -> all_hexed (Word w :: ts) (Word h :: us).

(** * Instructions *)

(** A text and its words between white space. *)
Inductive spaced : text -> list text -> Prop :=
| only_space g : blank g -> spaced g []
| last_word g w : blank g -> w <> [] -> (forall c, In c w -> is_space c = false) -> spaced (g ++ w) [w]
| next_word g w c s ws : blank g -> w <> [] -> (forall c, In c w -> is_space c = false) -> is_space c = true ->
    spaced s ws -> spaced (g ++ w ++ c :: s) (w :: ws).
Fixpoint joined (ws : list text) : text :=
  match ws with
  | [] => []
  | [w] => w
  | w :: ws => w ++ " "%char :: joined ws
  end.

(** What precedes the first #. *)
Definition uncommented (line s : text) : Prop :=
  ~ In "#"%char s /\ (line = s \/ exists r, line = s ++ "#"%char :: r).

(** The lines left out: those that mention one of these anywhere, and headings of sections. *)
Definition left_out (line : text) : Prop :=
  occurs (txt "endbr64") line \/ occurs (txt "endbr32") line \/ occurs (txt "nop") line \/
  exists g r, blank g /\ line = g ++ txt "Disassembly of section" ++ r.

(** The instruction on a line. *)
Definition states (line i : text) : Prop :=
  ~ left_out line /\
  exists s ws ts us, uncommented line s /\ spaced s ws /\ ws <> [] /\ tokens (joined ws) ts /\ hexed ts us /\ i = shown us.

(** The instructions on some lines, in order. *)
Inductive stated : list text -> list text -> Prop :=
| stated_end : stated [] []
| stated_line l ls i is : states l i -> stated ls is -> stated (l :: ls) (i :: is)
| stated_other l ls is : (forall i, ~ states l i) -> stated ls is -> stated (l :: ls) is.

(** * The table *)

(** g is the heading of a part of the lines, the last with this name, and the part states the instructions l. *)
Definition lists (ls : list text) (g : text) (l : list text) : Prop :=
  exists before h body after, ls = before ++ h :: body ++ after /\ heading h g /\
    (forall x n, In x body -> ~ heading x n) /\
    (forall x r, after = x :: r -> exists n, heading x n) /\ (forall x, In x after -> ~ heading x g) /\
    stated body l.
