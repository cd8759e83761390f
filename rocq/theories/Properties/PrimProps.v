(** Properties C01-C03: assignment to integer and boolean fields. *)
From Verif.Base Require Import Prelude Bits.
From Verif.Model Require Import BitCodec Types Codec Prim.
From Verif.Spec Require Import CodecSpec PrimSpec.
From Verif.Proofs Require Import PrimFacts.
Local Open Scope Z_scope.

(** C01 *)
Theorem C01_int_assign_read : forall k n cm x, int_type k n -> representable k n x ->
  exists b, set_int k n cm x = Ok b /\ get_int k n b = Some x.
Proof. exact assign_read. Qed.
Print Assumptions C01_int_assign_read.

Theorem C01_int_assign_send_read : forall k n cm x tao more,
  int_type k n -> representable k n x ->
  exists b w b', set_int k n cm x = Ok b /\
    pack (TPrim k n cm) tao (VPrim b) = Ok w /\
    unpack (TPrim k n cm) tao (w ++ more) = Ok (VPrim b', more) /\
    get_int k n b' = Some x.
Proof. exact assign_send_read. Qed.
Print Assumptions C01_int_assign_send_read.

Example C01_case : int_type KInt 64 /\ representable KInt 64 (- 9223372036854775808) /\
  (exists b, set_int KInt 64 Saturated (- 9223372036854775808) = Ok b /\
             get_int KInt 64 b = Some (- 9223372036854775808)) /\
  set_int KInt 12 Truncated (-5) = Ok (bits_of_N 12 4091).
Proof.
  split; [cbn; lia|]. split; [vm_compute; split; discriminate|].
  split; [|vm_compute; reflexivity].
  eexists. split; [vm_compute; reflexivity|]. vm_compute. reflexivity.
Qed.

(** Every assignment leaves a field that can be serialised. *)
Theorem C01_assigned_field_is_valid : forall k n cm x, int_type k n ->
  exists b, set_int k n cm x = Ok b /\ valid (TPrim k n cm) (VPrim b).
Proof. exact set_valid. Qed.
Print Assumptions C01_assigned_field_is_valid.

(** C02. The full statement, for every saturated integer type, is false:
    [int(uint_max / 2)] goes through a float, so the range of a signed type of
    54 bits or more is one too wide at both ends, and the stored pattern of
    such a bound belongs to the opposite end of the range. *)
Definition C02_statement : Prop := forall k n x, int_type k n -> k <> KBool ->
  exists b y, set_int k n Saturated x = Ok b /\ get_int k n b = Some y /\ nearest k n x y.

Theorem C02_saturation_refuted : exists k n x b y, int_type k n /\ k <> KBool /\
  set_int k n Saturated x = Ok b /\ get_int k n b = Some y /\ ~ nearest k n x y.
Proof.
  exists KInt, 64%nat, (2 ^ 63). eexists. eexists.
  split; [cbn; lia|]. split; [discriminate|].
  split; [vm_compute; reflexivity|]. split; [vm_compute; reflexivity|].
  intros [_ H]. specialize (H (2 ^ 63 - 1)). vm_compute in H.
  apply H; [split; discriminate|reflexivity].
Qed.
Print Assumptions C02_saturation_refuted.

(** It holds for all unsigned types and signed types of at most 53 bits. *)
Theorem C02_saturation_partial : forall k n x,
  int_type k n -> k <> KBool -> (k = KInt -> (n <= 53)%nat) ->
  exists b y, set_int k n Saturated x = Ok b /\ get_int k n b = Some y /\ nearest k n x y.
Proof. exact saturate_nearest. Qed.
Print Assumptions C02_saturation_partial.

(** The failure in full: for all longer signed types, every out-of-range
    value ends up at the opposite end. *)
Theorem C02_long_signed_wraps : forall k n x,
  int_type k n -> k = KInt -> (54 <= n)%nat -> ~ representable k n x ->
  exists b y, set_int k n Saturated x = Ok b /\ get_int k n b = Some y /\
    y = (if x <? 0 then int_hi k n else int_lo k n).
Proof. exact saturate_long. Qed.
Print Assumptions C02_long_signed_wraps.

Example C02_case : nearest KInt 8 1000 127 /\ nearest KUint 12 (-3) 0 /\
  set_int KInt 8 Saturated 1000 = Ok (bits_of_N 8 127).
Proof.
  split; [|split; [|vm_compute; reflexivity]]; (split; [vm_compute; split; discriminate|]).
  - intros z [H1 H2]. cbn in H1, H2. lia.
  - intros z [H1 H2]. change (int_lo KUint 12) with 0 in H1.
    change (int_hi KUint 12) with 4095 in H2. lia.
Qed.

(** C03 *)
Theorem C03_truncation_wraps : forall k n x, int_type k n -> k <> KBool ->
  exists b y, set_int k n Truncated x = Ok b /\ get_int k n b = Some y /\ wrapped k n x y.
Proof. exact truncate_wraps. Qed.
Print Assumptions C03_truncation_wraps.

Example C03_case : exists b, set_int KInt 8 Truncated 200 = Ok b /\
  get_int KInt 8 b = Some (-56) /\ wrapped KInt 8 200 (-56).
Proof.
  eexists. split; [vm_compute; reflexivity|]. split; [vm_compute; reflexivity|].
  split; [vm_compute; split; discriminate|]. exists 1. reflexivity.
Qed.
