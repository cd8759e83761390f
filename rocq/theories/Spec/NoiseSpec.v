(** Frames a node can make nothing of. *)
From Verif.Base Require Import Prelude.
From Verif.Model Require Import Frames Node.
Local Open Scope N_scope.

(** The data type id and kind in an identifier, by the layout of the
    specification: bit 7 tells services, whose type is at bits 16 to 23;
    messages have it at bits 8 to 23, of which anonymous ones (source 0) use
    the lowest two. *)
Definition type_in (i : N) : N * bool :=
  if (i / 2 ^ 7) mod 2 =? 1 then ((i / 2 ^ 16) mod 2 ^ 8, true)
  else if i mod 2 ^ 7 =? 0 then ((i / 2 ^ 8) mod 2 ^ 2, false)
  else ((i / 2 ^ 8) mod 2 ^ 16, false).

(** No data type is known for the identifier. *)
Definition unknown (types : datatypes) (i : N) : Prop := types (fst (type_in i)) (snd (type_in i)) = None.

(** A history in which the frames with certain identifiers are not heard: all
    that happens in their place is that the clock is read. *)
Definition unheard (noise : N -> bool) (i : ninput) : ninput :=
  match i with IFrame true f => if noise (f_id f) then IRead else i | _ => i end.
