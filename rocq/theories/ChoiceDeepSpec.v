(** A text in which the uses that follow from others are written out. *)
From Coq Require Import List.
From Verif Require Import Choice.
Import ListNotations.

(** Uses of t, of what its traits need, and so on; possibly not to the end. *)
Inductive chain : type -> list event -> Prop :=
| chain_end t : chain t [Use t]
| chain_enforce u l : chain u l -> chain (Wrapped Enforce u) (Use (Wrapped Enforce u) :: l)
| chain_member u l : chain u l -> chain (Wrapped Member u) (Use (Wrapped Member u) :: l).
Inductive written_out : list event -> list event -> Prop :=
| out_nil : written_out [] []
| out_use t l es es' : chain t l -> written_out es es' -> written_out (Use t :: es) (l ++ es')
| out_other e es es' : (forall t, e <> Use t) -> written_out es es' -> written_out (e :: es) (e :: es').
