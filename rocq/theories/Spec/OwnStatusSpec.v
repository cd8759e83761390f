(** What a node's status should say. *)
From Verif.Base Require Import Prelude Bits.
From Verif.Model Require Import Types Codec OwnStatus.
From Verif.Spec Require Import CodecSpec PrimSpec.
Local Open Scope Z_scope.

(** A node status as a reader sees it. *)
Record seen_status := Seen { seen_uptime : Z; seen_health : Z; seen_mode : Z; seen_sub_mode : Z; seen_code : Z }.
Definition status_of (v : value) : option seen_status :=
  match v with
  | VComp (VPrim u :: VPrim h :: VPrim m :: VPrim s :: VPrim c :: _) _ =>
      Some (Seen (Z.of_N (N_of_bits u)) (Z.of_N (N_of_bits h)) (Z.of_N (N_of_bits m)) (Z.of_N (N_of_bits s)) (Z.of_N (N_of_bits c)))
  | _ => None
  end.
(** The status in a node info, and the rest of it. *)
Definition info_status (v : value) : option seen_status :=
  match v with VComp (st :: _) _ => status_of st | _ => None end.
Definition info_rest (v : value) : value :=
  match v with VComp (_ :: rest) a => VComp rest a | _ => VComp [] None end.

(** The longest uptime that fits. *)
Definition longest : Z := 2 ^ 32 - 1.
(** The uptime is within half a second of the time since the start, in
    seconds; or the longest that fits when more has passed. *)
Definition right_uptime (second start now u : Z) : Prop :=
  0 <= u <= longest /\
  (u < longest -> 2 * Z.abs (u * second - (now - start)) <= second) /\
  (u = longest -> 2 * (longest * second) <= 2 * (now - start) + second).

(** It is the node's own: uptime, and health, mode and code, each the nearest
    value that the field can hold. *)
Definition truthful (second : Z) (me : self) (now : Z) (s : seen_status) : Prop :=
  right_uptime second (me_start me) now (seen_uptime s) /\
  nearest KUint 2 (me_health me) (seen_health s) /\
  nearest KUint 3 (me_mode me) (seen_mode s) /\
  nearest KUint 16 (me_code me) (seen_code s).
