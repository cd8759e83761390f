(** dronecan/driver/common.py 42-54: the text of a CAN frame. *)
From Verif.Base Require Import Prelude.
From Verif.Model Require Import CanFrame Slcan.
Local Open Scope N_scope.

(** ['%0<width>x']; [str.rjust], [str.ljust], [' '.join]. *)
Definition hex_low (width : nat) (n : N) : list N := hex_fixed false (Nat.max width (N.to_nat (N.log2 n / 4 + 1))) n.
Definition rjust (n : nat) (s : list N) : list N := repeat 32 (n - length s) ++ s.
Definition ljust (n : nat) (s : list N) : list N := s ++ repeat 32 (n - length s).
Fixpoint join (l : list (list N)) : list N :=
  match l with
  | [] => []
  | [x] => x
  | x :: l => x ++ 32 :: join l
  end.

(** 48-50. [MAX_DATA_LENGTH] is set at 35-38. *)
Definition id_text (f : cframe) : list N :=
  rjust 11 ((if c_fd f then [70; 68] else []) ++ 32 :: hex_low (if c_ext f then 8 else 3) (c_id f)).
Definition hex_text (f : cframe) : list N :=
  ljust (3 * (if c_fd f then 64 else 8)) (join (map (hex_low 2) (c_data f))).
Definition ascii_text (f : cframe) : list N := map (fun x => if (32 <=? x) && (x <=? 126) then x else 46) (c_data f).
(** 52-53; [mono] and [real]: the times, formatted. *)
Definition frame_text (mono real : list N) (f : cframe) : list N :=
  mono ++ 32 :: real ++ [32; 32] ++ id_text f ++ [32; 32] ++ hex_text f ++ [32; 32; 39] ++ ascii_text f ++ [39].
