(** Properties C06-C11, C67, C68: serialisation. *)
From Verif.Base Require Import Prelude Bits.
From Verif.Model Require Import BitCodec Types Codec.
From Verif.Spec Require Import CodecSpec.
From Verif.Proofs Require Import BitCodecFacts CodecFacts DecodeFacts WireFacts TruncFacts CodecTop CutFacts.

(** A type with nesting, a void, a union and a tail array, used below. *)
Definition ex_type : dtype :=
  TComp false
    [ TPrim KUint 3 Saturated; TVoid 5;
      TComp true [TPrim KInt 12 Saturated; TArr true (TPrim KUint 4 Truncated) 6;
                  TPrim KBool 1 Saturated];
      TArr false (TPrim KFloat 16 Saturated) 2;
      TArr true (TPrim KUint 8 Saturated) 9 ].

Definition ex_value : value :=
  VComp
    [ VPrim [true; false; true]; VVoid;
      VComp [VPrim (repeat false 12); VArr [VPrim [true;false;false;true]; VPrim [false;true;true;true]];
             VPrim [false]] (Some 1);
      VArr [VPrim (bits_of_N 16 15360); VPrim (bits_of_N 16 49152)];
      VArr [VPrim (bits_of_N 8 65); VPrim (bits_of_N 8 66); VPrim (bits_of_N 8 200)] ] None.

Lemma ex_type_wf : wf_type ex_type.
Proof. cbn. repeat split; intros; try lia; discriminate. Qed.

Lemma ex_value_valid : valid ex_type ex_value.
Proof.
  unfold ex_type, ex_value.
  repeat first [ intros ? [= <-]; cbn; lia | apply valid_prim; reflexivity | apply valid_void | apply valid_struct
               | apply valid_union | apply valid_static | apply valid_dynamic
               | constructor ].
  all: cbn; lia.
Qed.

(** C06: what the application decodes from the bytes of the payload has the
    content that was encoded, in either mode, whatever the type. *)
Theorem C06_serialisation_roundtrip : forall t v tao,
  wf_type t -> valid t v ->
  exists bs v' rest,
    pack t tao v = Ok bs /\
    unpack t tao (bits_from_bytes (bytes_from_bits bs)) = Ok (v', rest) /\
    content t v' = content t v /\ valid t v'.
Proof. exact pack_unpack_bytes. Qed.
Print Assumptions C06_serialisation_roundtrip.

(** The same on bit strings, with any padding shorter than a byte. *)
Theorem C06_roundtrip_any_padding : forall t v tao pad,
  wf_type t -> valid t v -> length pad < 8 ->
  exists bs v' rest,
    pack t tao v = Ok bs /\
    unpack t tao (bs ++ pad) = Ok (v', rest) /\
    content t v' = content t v /\ valid t v'.
Proof. exact pack_unpack_pad. Qed.
Print Assumptions C06_roundtrip_any_padding.

Example C06_case :
  wf_type ex_type /\ valid ex_type ex_value /\
  exists bs, pack ex_type true ex_value = Ok bs /\ length bs = 77 /\
  exists v', unpack ex_type true (bits_from_bytes (bytes_from_bits bs)) = Ok (v', []) /\
  content ex_type v' = content ex_type ex_value.
Proof.
  split; [exact ex_type_wf|]. split; [exact ex_value_valid|].
  eexists. split; [vm_compute; reflexivity|]. split; [reflexivity|].
  eexists. split; vm_compute; reflexivity.
Qed.

(** C07 *)
Theorem C07_length_bounds : forall t v tao, wf_type t -> valid t v ->
  exists bs, pack t tao v = Ok bs /\
    get_min_bitlen t <= length bs <= get_max_bitlen t.
Proof. exact pack_length_bounds. Qed.
Print Assumptions C07_length_bounds.

Example C07_case : get_min_bitlen ex_type = 42 /\ get_max_bitlen ex_type = 145 /\
  exists bs, pack ex_type false ex_value = Ok bs /\ length bs = 81.
Proof.
  split; [vm_compute; reflexivity|]. split; [vm_compute; reflexivity|].
  eexists. split; [vm_compute; reflexivity|]. reflexivity.
Qed.

(** C08 is false: a length prefix may exceed the capacity, and a tail array
    is read until the payload ends. *)
Theorem C08_decoded_size_refuted :
  exists t s v rest, wf_type t /\ unpack t false s = Ok (v, rest) /\ ~ sizes_ok t v.
Proof.
  exists (TArr true (TPrim KUint 8 Saturated) 5), (repeat true 3 ++ repeat false 56),
    (VArr (repeat (VPrim (repeat false 8)) 7)), [].
  split; [cbn; lia|]. split; [vm_compute; reflexivity|].
  intros H. inversion H; subst. cbn in *. lia.
Qed.
Print Assumptions C08_decoded_size_refuted.

Theorem C08_decoded_size_tao_refuted :
  exists t s v rest, wf_type t /\ unpack t true s = Ok (v, rest) /\ ~ sizes_ok t v.
Proof.
  exists (TArr true (TPrim KUint 8 Saturated) 5), (repeat true 56),
    (VArr (repeat (VPrim (repeat true 8)) 7)), [].
  split; [cbn; lia|]. split; [vm_compute; reflexivity|].
  intros H. inversion H; subst. cbn in *. lia.
Qed.
Print Assumptions C08_decoded_size_tao_refuted.

(** What does hold: whatever is decoded without TAO, every array is within
    the capacity that its length prefix can express, namely below twice the
    declared maximum plus one; and when no array is too long the decoded
    object is a valid one. *)
Theorem C08_decoded_size_partial : forall t tao s v rest, wf_type t ->
  unpack t tao s = Ok (v, rest) -> sizes_ok t v -> valid t v.
Proof. exact decoded_valid. Qed.
Print Assumptions C08_decoded_size_partial.

Theorem C08_count_below_double_partial : forall et mx s items rest, 1 <= mx ->
  unpack (TArr true et mx) false s = Ok (VArr items, rest) ->
  length items <= 2 * mx.
Proof. exact decoded_count_bound. Qed.
Print Assumptions C08_count_below_double_partial.

Example C08_case : exists v, unpack ex_type true
    (bits_from_bytes [0; 0; 0; 0; 0; 0; 255; 255]%N) = Ok (v, []) /\ valid ex_type v.
Proof.
  eexists. split; [vm_compute; reflexivity|].
  apply C08_decoded_size_partial with (tao := true)
    (s := bits_from_bytes [0; 0; 0; 0; 0; 0; 255; 255]%N) (rest := []);
    [exact ex_type_wf|vm_compute; reflexivity|].
  repeat constructor.
Qed.

(** C09 *)
Theorem C09_trailing_bits_untouched : forall t v more, wf_type t -> valid t v ->
  exists bs v', pack t false v = Ok bs /\
    unpack t false (bs ++ more) = Ok (v', more) /\ content t v' = content t v.
Proof. exact pack_unpack_suffix. Qed.
Print Assumptions C09_trailing_bits_untouched.

Example C09_case : exists bs v', pack ex_type false ex_value = Ok bs /\
  unpack ex_type false (bs ++ [true; true; false]) = Ok (v', [true; true; false]) /\
  bs <> [].
Proof.
  eexists. eexists. split; [vm_compute; reflexivity|].
  split; [vm_compute; reflexivity|discriminate].
Qed.

(** C10: position by position, the re-encoding equals the received bits,
    except that void positions become zero; the rest is untouched. *)
Theorem C10_reencode_decoded : forall t s v rest, wf_type t ->
  unpack t false s = Ok (v, rest) -> sizes_ok t v ->
  length (void_mask t v) <= length s ->
  exists bs, pack t false v = Ok bs /\
    length bs = length (void_mask t v) /\
    rest = skipn (length bs) s /\
    forall i, i < length bs ->
      if nth i (void_mask t v) false then nth i bs false = false
      else nth_error s i = Some (nth i bs false).
Proof. exact reencode_decoded. Qed.
Print Assumptions C10_reencode_decoded.

(** Two received strings that decode to the same message agree outside void
    positions. *)
Theorem C10_decode_injective : forall t s1 s2 v r1 r2, wf_type t ->
  unpack t false s1 = Ok (v, r1) -> unpack t false s2 = Ok (v, r2) -> sizes_ok t v ->
  length (void_mask t v) <= length s1 -> length (void_mask t v) <= length s2 ->
  forall i, i < length (void_mask t v) -> nth i (void_mask t v) false = false ->
    nth_error s1 i = nth_error s2 i.
Proof. exact decode_injective. Qed.
Print Assumptions C10_decode_injective.

Example C10_case : exists s v rest,
  unpack ex_type false s = Ok (v, rest) /\ length s = 90 /\
  length (void_mask ex_type v) = 81 /\ rest <> [] /\
  firstn 8 s = repeat true 8 /\
  (exists bs, pack ex_type false v = Ok bs /\ firstn 8 bs = [true;true;true;false;false;false;false;false]).
Proof.
  exists (repeat true 8 ++ [false;true] ++ [false;true;false] ++ repeat true 8 ++ repeat false 32
          ++ [false;false;true;true] ++ repeat true 33).
  eexists. eexists. split; [vm_compute; reflexivity|].
  split; [reflexivity|]. split; [vm_compute; reflexivity|]. split; [discriminate|].
  split; [reflexivity|]. eexists. split; vm_compute; reflexivity.
Qed.

(** C11 *)
Theorem C11_integer_layout : forall k cm n tao x, 1 <= n -> (x < 2 ^ N.of_nat n)%N ->
  exists w, pack (TPrim k n cm) tao (VPrim (bits_of_N n x)) = Ok w /\ length w = n /\
    forall j, j < n -> nth j w false = N.testbit x (N.of_nat (wire_index n j)).
Proof. exact integer_layout. Qed.
Print Assumptions C11_integer_layout.

(** For whole bytes: the bytes of the number, least significant first. *)
Theorem C11_integer_bytes : forall k cm m tao x, 1 <= m -> (x < 256 ^ N.of_nat m)%N ->
  exists w, pack (TPrim k (8 * m) cm) tao (VPrim (bits_of_N (8 * m) x)) = Ok w /\
    bytes_from_bits w = map (fun i => ((x / 256 ^ N.of_nat i) mod 256)%N) (seq 0 m).
Proof. exact integer_bytes. Qed.
Print Assumptions C11_integer_bytes.

Example C11_case : pack (TPrim KUint 12 Saturated) false (VPrim (bits_of_N 12 2748)) =
  Ok (bits_of_N 12 (0xBCA)).
Proof. vm_compute. reflexivity. Qed.

(** C67 *)
Theorem C67_truncated_rejected_partial : forall t v bs p q, wf_type t -> no_gaps t ->
  valid t v -> pack t false v = Ok bs -> bs = p ++ q -> q <> [] ->
  is_ok (unpack t false p) = false.
Proof. exact truncated_rejected_all. Qed.
Print Assumptions C67_truncated_rejected_partial.

Theorem C67_truncated_rejected_refuted : exists t v bs p q, wf_type t /\
  valid t v /\ pack t false v = Ok bs /\ bs = p ++ q /\ q <> [] /\
  is_ok (unpack t false p) = true.
Proof.
  exists (TComp false [TPrim KUint 8 Saturated; TVoid 8]),
    (VComp [VPrim (repeat true 8); VVoid] None),
    (repeat true 8 ++ repeat false 8), (repeat true 8), (repeat false 8).
  split; [cbn; repeat split; try lia; discriminate|].
  split; [repeat constructor|]. split; [vm_compute; reflexivity|].
  split; [reflexivity|]. split; [discriminate|]. vm_compute. reflexivity.
Qed.
Print Assumptions C67_truncated_rejected_refuted.

(** With voids: a cut form is read exactly when all the bits it lacks belong
    to void fields ... *)
Theorem C67_cut_partial : forall t v bs p q, wf_type t -> solid t -> valid t v ->
  pack t false v = Ok bs -> bs = p ++ q ->
  is_ok (unpack t false p) = forallb (fun b => b) (skipn (length p) (void_mask t v)).
Proof. exact cut_iff. Qed.
Print Assumptions C67_cut_partial.

(** ... and then no field is made up: what is read is what was written. *)
Theorem C67_means_partial : forall t v bs p q w r, wf_type t -> solid t -> valid t v ->
  pack t false v = Ok bs -> bs = p ++ q -> unpack t false p = Ok (w, r) ->
  r = [] /\ content t w = content t v.
Proof. exact cut_means. Qed.
Print Assumptions C67_means_partial.

(** Cut between two bytes, a union may be read as another variant: the tag is
    taken from however many bits are there. *)
Definition cut_type : dtype := TComp false [TPrim KUint 6 Saturated;
  TComp true [TPrim KUint 8 Saturated; TComp false []; TPrim KUint 8 Saturated;
              TPrim KUint 16 Saturated; TPrim KUint 32 Saturated]].
Definition cut_value : value := VComp [VPrim (repeat true 6);
  VComp [VPrim (repeat false 8); VComp [] None; VPrim (repeat true 8);
         VPrim (repeat false 16); VPrim (repeat false 32)] (Some 2)] None.
Definition cut_read : value := VComp [VPrim (repeat true 6);
  VComp [VPrim (repeat false 8); VComp [] None; VPrim (repeat false 8);
         VPrim (repeat false 16); VPrim (repeat false 32)] (Some 1)] None.

Theorem C67_variant_refuted : exists t v w bs p q, wf_type t /\ valid t v /\
  pack t false v = Ok bs /\ bs = p ++ q /\ length p = 8 /\ q <> [] /\
  unpack t false p = Ok (w, []) /\ content t w <> content t v.
Proof.
  exists cut_type, cut_value, cut_read,
    (repeat true 6 ++ [false; true; false] ++ repeat true 8),
    (repeat true 6 ++ [false; true]), (false :: repeat true 8).
  split; [cbn; repeat split; try lia; discriminate|].
  split.
  { apply valid_struct. constructor; [constructor; reflexivity|].
    constructor; [|constructor]. apply valid_union; [|intros i [= <-]; cbn; lia].
    repeat constructor. }
  split; [vm_compute; reflexivity|]. split; [reflexivity|]. split; [reflexivity|].
  split; [discriminate|]. split; [vm_compute; reflexivity|]. vm_compute. discriminate.
Qed.
Print Assumptions C67_variant_refuted.

Example C67_cut_case : let t := TComp false [TPrim KUint 8 Saturated; TVoid 4;
    TArr true (TComp false [TPrim KUint 4 Saturated; TVoid 4]) 3] in
  let v := VComp [VPrim (repeat true 8); VVoid;
    VArr [VComp [VPrim (repeat true 4); VVoid] None]] None in
  wf_type t /\ solid t /\ valid t v /\
  void_mask t v = repeat false 8 ++ repeat true 4 ++ [false;false] ++ repeat false 4 ++
    repeat true 4.
Proof.
  split; [cbn; repeat split; try lia; discriminate|].
  split; [cbn; repeat split; discriminate|].
  split; [repeat constructor|]. vm_compute. reflexivity.
Qed.

Example C67_case : no_gaps (TComp false [TPrim KUint 8 Saturated; TArr true (TPrim KInt 4 Saturated) 3]).
Proof. cbn. repeat split; discriminate. Qed.

(** C68 *)
Theorem C68_wire_format : forall t v tao, wf_type t -> valid t v ->
  pack t tao v = Ok (wire t tao v).
Proof. exact pack_is_wire. Qed.
Print Assumptions C68_wire_format.

Example C68_case : wire ex_type true ex_value =
  [true;false;true] ++ repeat false 5 ++ [false;true] ++ [false;true;false] ++
  [true;false;false;true] ++ [false;true;true;true] ++
  bits_of_N 16 0x003C ++ bits_of_N 16 0x00C0 ++ bits_of_N 24 0x4142C8.
Proof. vm_compute. reflexivity. Qed.

(** C69 *)
Theorem C69_oversized_arrays_are_cut : forall t v tao, wf_type t -> loose t v ->
  valid t (clip t v) /\ pack t tao v = Ok (wire t tao (clip t v)).
Proof. exact pack_any. Qed.
Print Assumptions C69_oversized_arrays_are_cut.

(** Whatever was received, even with oversized arrays, re-sending it works,
    fits the declared maximum and is decodable to the cut value. *)
Theorem C69_received_can_be_resent : forall t tao tao' s v rest, wf_type t ->
  unpack t tao s = Ok (v, rest) ->
  exists bs, pack t tao' v = Ok bs /\ length bs <= get_max_bitlen t /\
    exists v' rest', unpack t tao' bs = Ok (v', rest') /\ valid t v' /\
      content t v' = content t (clip t v).
Proof. exact relay_any. Qed.
Print Assumptions C69_received_can_be_resent.

Example C69_case : exists v,
  unpack (TArr true (TPrim KUint 8 Saturated) 5) true (repeat true 56) = Ok (v, []) /\
  ~ valid (TArr true (TPrim KUint 8 Saturated) 5) v /\
  loose (TArr true (TPrim KUint 8 Saturated) 5) v /\
  pack (TArr true (TPrim KUint 8 Saturated) 5) false v = Ok ([true;false;true] ++ repeat true 40).
Proof.
  eexists. split; [vm_compute; reflexivity|].
  split; [intros H; inversion H; subst; cbn in *; lia|].
  split; [repeat constructor|vm_compute; reflexivity].
Qed.
