(** The layout of the packets of the drivers. *)
From Verif.Base Require Import Prelude Pack Bits.
From Verif.Model Require Import Crc CanFrame Packets FileLog.
From Verif.Spec Require Import CrcSpec PacketSpec LogSpec.
From Verif.Proofs Require Import CrcFacts LogFacts PacketFacts.
Local Open Scope N_scope.

Lemma flagged_sum x : x < 2 ^ 29 -> N.lor x 0x80000000 = x + 2147483648.
Proof.
  intros H. symmetry. assert (N.land x 0x80000000 = 0) as L.
  { apply N.bits_inj. intros i. rewrite N.land_spec, N.bits_0. change 0x80000000 with (2 ^ 31).
    rewrite N.pow2_bits_eqb. destruct (N.eqb_spec 31 i) as [<-|]; [|apply Bool.andb_false_r].
    rewrite Bool.andb_true_r. destruct (N.eq_dec x 0) as [->|Hx]; [apply N.bits_0|].
    apply N.bits_above_log2. apply N.log2_lt_pow2; [lia|]. change (2 ^ 29) with 536870912 in H. change (2 ^ 31) with 2147483648. lia. }
  change 2147483648 with 0x80000000. rewrite N.add_nocarry_lxor by exact L. apply N.lxor_lor. exact L.
Qed.

Lemma flagged_wire f : c_id f < 2 ^ 29 -> flagged_id f = wire_id f /\ wire_id f < 4294967296.
Proof.
  intros H. unfold flagged_id, wire_id. change (N.shiftl 1 31) with 0x80000000. split.
  - destruct (c_ext f); [apply flagged_sum; exact H|symmetry; apply N.add_0_r].
  - change (2 ^ 29) with 536870912 in H. destruct (c_ext f); lia.
Qed.

Lemma pack_id w : w < 4294967296 ->
  pack_le 4 (Z.of_N w) = Ok [w mod 256; w / 256 mod 256; w / 65536 mod 256; w / 16777216].
Proof.
  intros H. unfold pack_le. change (256 ^ Z.of_nat 4)%Z with 4294967296%Z.
  replace (_ && _)%Z with true by lia. rewrite N2Z.id. cbn [le_bytes].
  rewrite !N.div_div by discriminate. change (256 * 256) with 65536. change (65536 * 256) with 16777216.
  change (256 * 65536) with 16777216.
  rewrite (N.mod_small (w / 16777216)); [reflexivity|]. apply N.div_lt_upper_bound; [discriminate|exact H].
Qed.

Lemma mcast_layout f : on_bus f -> exists lo hi,
  mcast_packet f = Ok ([0x34; 0x29; lo; hi] ++ mcast_body f) /\ lo < 256 /\ hi < 256 /\
  lo + 256 * hi = crc16_from_bytes (mcast_body f) 0xFFFF.
Proof.
  intros (HI & HD & HL). destruct (flagged_wire f HI) as (W & WL).
  unfold mcast_packet. rewrite W, (pack_id _ WL).
  replace (pack_le 2 (Z.of_N (if c_fd f then MCAST_FLAG_CANFD else 0))) with (Ok [if c_fd f then 1 else 0; 0])
    by (destruct (c_fd f); reflexivity).
  cbn [bind]. cbv zeta.
  change (([if c_fd f then 1 else 0; 0] ++ [wire_id f mod 256; wire_id f / 256 mod 256; wire_id f / 65536 mod 256; wire_id f / 16777216] ++ c_data f))
    with (mcast_body f).
  change (pack_le 2 (Z.of_N MCAST_MAGIC)) with (Ok [0x34; 0x29]). cbn [bind].
  pose proof (crc16_range (mcast_body f) 0xFFFF) as CR. change (2 ^ 16) with 65536 in CR.
  destruct (pack_le_fits 2 (Z.of_N (crc16_from_bytes (mcast_body f) 0xFFFF))) as (h2 & E4);
    [change (256 ^ Z.of_nat 2)%Z with 65536%Z; lia|].
  rewrite E4. cbn [bind]. apply pack_le_ok in E4 as (L & B & V).
  destruct h2 as [|lo [|hi [|]]]; try discriminate.
  apply Forall_cons_iff in B as (B1 & B). apply Forall_cons_iff in B as (B2 & _).
  exists lo, hi. split; [reflexivity|]. split; [exact B1|]. split; [exact B2|].
  apply N2Z.inj in V. rewrite <- V. cbn [le_value]. lia.
Qed.

Lemma pad_exact d n : (length d <= n)%nat -> pack_s n (d ++ repeat 0 (n - length d)) = d ++ repeat 0 (n - length d).
Proof.
  intros L. assert (length (d ++ repeat 0 (n - length d)) = n) as E by (rewrite app_length, repeat_length; lia).
  unfold pack_s. rewrite E, Nat.sub_diag, app_nil_r. apply firstn_all2. lia.
Qed.

Lemma sock_layout f : on_bus f -> sock_packet f = Ok (can_struct f).
Proof.
  intros (HI & HD & HL). destruct (flagged_wire f HI) as (W & WL). unfold sock_packet.
  replace (if c_ext f then N.lor (c_id f) 0x80000000 else c_id f) with (wire_id f) by (symmetry; exact W).
  rewrite (pack_id _ WL). cbn [bind].
  replace (pack_le 1 (Z.of_nat (length (c_data f)))) with (Ok [N.of_nat (length (c_data f))]).
  2:{ unfold pack_le. change (256 ^ Z.of_nat 1)%Z with 256%Z. destruct (c_fd f);
      replace (_ && _)%Z with true by lia; cbn [le_bytes]; repeat f_equal; rewrite N.mod_small by lia; lia. }
  cbn [bind]. unfold can_struct, id_bytes. destruct (c_fd f); rewrite pad_exact by exact HL; reflexivity.
Qed.

(** A record of a log file. *)
Lemma record_layout f : loggable f -> exists ts crc,
  record f = Ok ([0x34; 0x29] ++ ts ++ crc ++
                 [N.of_nat (length (c_data f)) mod 256; N.of_nat (length (c_data f)) / 256; if c_fd f then 1 else 0; 0] ++
                 id_bytes f ++ c_data f) /\
  length ts = 8%nat /\ byte_string ts /\ Z.of_N (le_value ts) = c_ts f /\
  length crc = 2%nat /\ byte_string crc /\ le_value crc = crc16_from_bytes (c_data f) 0xFFFF.
Proof.
  intros (HI & HD & HL & HT). destruct (flagged_wire f HI) as (W & WL).
  pose proof (crc16_range (c_data f) 0xFFFF) as CR. change (2 ^ 16) with 65536 in CR.
  change (2 ^ 64)%Z with 18446744073709551616%Z in HT.
  destruct (pack_le_fits 8 (c_ts f)) as (ts & E2); [change (256 ^ Z.of_nat 8)%Z with 18446744073709551616%Z; exact HT|].
  destruct (pack_le_fits 2 (Z.of_N (crc16_from_bytes (c_data f) 0xFFFF))) as (crc & E3);
    [change (256 ^ Z.of_nat 2)%Z with 65536%Z; lia|].
  exists ts, crc. unfold record. cbv zeta.
  change (if c_ext f then N.lor (c_id f) (N.shiftl 1 31) else c_id f) with (flagged_id f).
  rewrite W, (pack_id _ WL), E2, E3.
  change (pack_le 2 (Z.of_N FILE_MAGIC)) with (Ok [0x34; 0x29]).
  replace (pack_le 2 (Z.of_N (if c_fd f then FILE_FLAG_CANFD else 0))) with (Ok [if c_fd f then 1 else 0; 0])
    by (destruct (c_fd f); reflexivity).
  replace (pack_le 2 (Z.of_nat (length (c_data f))))
    with (Ok [N.of_nat (length (c_data f)) mod 256; N.of_nat (length (c_data f)) / 256]).
  2:{ unfold pack_le. change (256 ^ Z.of_nat 2)%Z with 65536%Z. set (n := length (c_data f)) in *.
      replace (_ && _)%Z with true by lia. replace (Z.to_N (Z.of_nat n)) with (N.of_nat n) by lia.
      cbn [le_bytes]. rewrite (N.mod_small (N.of_nat n / 256)); [reflexivity|].
      apply N.div_lt_upper_bound; [discriminate|]. change (256 * 256) with 65536. exact HL. }
  cbn [bind]. apply pack_le_ok in E2 as (L2 & B2 & V2). apply pack_le_ok in E3 as (L3 & B3 & V3).
  split; [reflexivity|]. split; [exact L2|]. split; [exact B2|]. split; [exact V2|]. split; [exact L3|].
  split; [exact B3|]. apply N2Z.inj. exact V3.
Qed.
