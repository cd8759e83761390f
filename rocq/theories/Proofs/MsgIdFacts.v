From Verif.Base Require Import Prelude Bits.
From Verif.Model Require Import MsgId.
From Verif.Spec Require Import MsgIdSpec.
Local Open Scope N_scope.

Lemma lor_shift_add b k a : a < 2 ^ k -> N.lor (N.shiftl b k) a = b * 2 ^ k + a.
Proof.
  intros Ha. rewrite <- N.shiftl_mul_pow2. symmetry. rewrite N.add_nocarry_lxor.
  - apply N.bits_inj. intros i. rewrite N.lxor_spec, N.lor_spec.
    destruct (N.lt_ge_cases i k) as [Hi|Hi].
    + rewrite N.shiftl_spec_low by exact Hi. destruct (N.testbit a i); reflexivity.
    + replace (N.testbit a i) with false.
      * rewrite xorb_false_r, orb_false_r. reflexivity.
      * symmetry. destruct (N.eq_dec a 0) as [->|]; [apply N.bits_0|].
        apply N.bits_above_log2. apply N.log2_lt_pow2 in Ha; lia.
  - apply N.bits_inj. intros i. rewrite N.land_spec, N.bits_0.
    destruct (N.lt_ge_cases i k) as [Hi|Hi].
    + rewrite N.shiftl_spec_low by exact Hi. reflexivity.
    + replace (N.testbit a i) with false; [apply andb_false_r|].
      symmetry. destruct (N.eq_dec a 0) as [->|]; [apply N.bits_0|].
      apply N.bits_above_log2. apply N.log2_lt_pow2 in Ha; lia.
Qed.

Lemma land_mask x n : N.land x (2 ^ n - 1) = x mod 2 ^ n.
Proof. rewrite <- N.land_ones, N.ones_equiv, N.sub_1_r. reflexivity. Qed.

Lemma flag_div x n : flag x (2 ^ n) = ((x / 2 ^ n) mod 2 =? 1).
Proof.
  unfold flag.
  destruct (N.testbit x n) eqn:E.
  - assert (N.land x (2 ^ n) <> 0) as H.
    { intros H. apply (f_equal (fun v => N.testbit v n)) in H.
      rewrite N.land_spec, N.pow2_bits_true, N.bits_0, E in H. discriminate. }
    apply N.testbit_true in E. rewrite E. apply N.eqb_neq in H. rewrite H. reflexivity.
  - assert (N.land x (2 ^ n) = 0) as ->.
    { apply N.bits_inj. intros i. rewrite N.land_spec, N.bits_0, N.pow2_bits_eqb.
      destruct (N.eqb_spec n i) as [<-|]; [rewrite E; reflexivity|apply andb_false_r]. }
    apply N.testbit_false in E. rewrite E. reflexivity.
Qed.

Ltac norm_masks :=
  change 0x1F with (2 ^ 5 - 1) in *; change 0x7F with (2 ^ 7 - 1) in *;
  change 0xFF with (2 ^ 8 - 1) in *; change 0x3FFF with (2 ^ 14 - 1) in *;
  change 0xFFFF with (2 ^ 16 - 1) in *; change 0x3 with (2 ^ 2 - 1) in *;
  rewrite ?land_mask, ?N.shiftr_div_pow2 in *.

Theorem message_id_layout h : legal h -> message_id h = Ok (can_id h).
Proof.
  intros H. destruct H as [p s d Hp Hs Hd|p d disc Hp Hd Hdisc|p r s dst d Hp Hs Hdst Hd];
    unfold message_id, can_id;
    cbn [h_priority h_service h_request h_source h_dest h_dtid h_discriminator];
    rewrite !(land_mask _ 5), N.mod_small by exact Hp.
  - replace (s =? 0) with false by lia. replace (d <=? 0xFFFF) with true by lia.
    cbn [negb int_of_bool]. f_equal. rewrite N.shiftl_0_l, N.lor_0_r.
    rewrite <- N.lor_assoc, (N.lor_comm s). rewrite (lor_shift_add d 8) by lia.
    rewrite lor_shift_add by lia. lia.
  - cbn [N.eqb negb int_of_bool]. f_equal. rewrite N.shiftl_0_l, !N.lor_0_r.
    rewrite (land_mask _ 2), N.mod_small by exact Hd.
    rewrite <- N.lor_assoc.
    replace (N.shiftl d 8) with (d * 2 ^ 8) by (rewrite N.shiftl_mul_pow2; reflexivity).
    rewrite (lor_shift_add disc 10) by lia. rewrite lor_shift_add by lia. lia.
  - replace (d <=? 0xFF) with true by lia. cbn [negb].
    replace ((1 <=? dst) && (dst <=? 0x7F)) with true by lia. cbn [negb]. f_equal.
    rewrite <- !N.lor_assoc.
    rewrite (N.lor_comm s), (N.lor_comm (N.shiftl d 16)), !N.lor_assoc.
    replace (N.lor (N.lor (N.lor (N.lor (N.shiftl p 24) (N.shiftl (int_of_bool true) 7))
       (N.shiftl (int_of_bool r) 15)) (N.shiftl dst 8)) (N.shiftl d 16))
      with (N.lor (N.shiftl p 24) (N.lor (N.shiftl d 16) (N.lor (N.shiftl (int_of_bool r) 15)
              (N.lor (N.shiftl dst 8) (N.shiftl (int_of_bool true) 7))))).
    2:{ apply N.bits_inj. intros i. rewrite !N.lor_spec.
        repeat match goal with |- context [N.testbit ?a ?b] => destruct (N.testbit a b) end; reflexivity. }
    rewrite <- !N.lor_assoc.
    change (int_of_bool true) with 1.
    rewrite (lor_shift_add 1 7) by lia. rewrite (lor_shift_add dst 8) by lia.
    rewrite (lor_shift_add (int_of_bool r) 15) by lia.
    rewrite (lor_shift_add d 16) by (destruct r; cbn [int_of_bool]; lia).
    rewrite (lor_shift_add p 24) by (destruct r; cbn [int_of_bool]; lia).
    destruct r; cbn [int_of_bool]; lia.
Qed.

Lemma set_message_id_arith h v : set_message_id h v =
  let priority := (v / 2 ^ 24) mod 32 in
  let source := v mod 128 in
  if (v / 2 ^ 7) mod 2 =? 1 then
    Header priority true ((v / 2 ^ 15) mod 2 =? 1) (Some source)
      (Some ((v / 2 ^ 8) mod 128)) ((v / 2 ^ 16) mod 2 ^ 8) (h_discriminator h)
  else if source =? 0 then
    Header priority false (h_request h) (Some source) (h_dest h)
      ((v / 2 ^ 8) mod 4) (Some ((v / 2 ^ 10) mod 2 ^ 14))
  else
    Header priority false (h_request h) (Some source) (h_dest h)
      ((v / 2 ^ 8) mod 2 ^ 16) (h_discriminator h).
Proof.
  unfold set_message_id. change 0x80 with (2 ^ 7). change 0x8000 with (2 ^ 15).
  rewrite !flag_div. norm_masks. cbv zeta.
  destruct ((v / 2 ^ 7) mod 2 =? 1); [reflexivity|]. reflexivity.
Qed.

Theorem decode_encode h : legal h -> set_message_id fresh_header (can_id h) = h.
Proof.
  intros H. rewrite set_message_id_arith.
  destruct H as [p s d Hp Hs Hd|p d disc Hp Hd Hdisc|p r s dst d Hp Hs Hdst Hd];
    unfold can_id, fresh_header;
    cbn [h_priority h_service h_request h_source h_dest h_dtid h_discriminator]; cbv zeta.
  - replace (s =? 0) with false by lia.
    set (v := _ + s).
    replace ((v / 2 ^ 7) mod 2 =? 1) with false by lia.
    replace (v mod 128 =? 0) with false by lia.
    f_equal; [|f_equal|]; lia.
  - cbn [N.eqb]. set (v := _ + 0).
    replace ((v / 2 ^ 7) mod 2 =? 1) with false by lia.
    replace (v mod 128 =? 0) with true by lia.
    f_equal; [|f_equal| |f_equal]; lia.
  - set (rb := if r then 2 ^ 15 else 0).
    assert (rb = (if r then 1 else 0) * 2 ^ 15) as Hrb by (destruct r; reflexivity).
    set (b := if r then 1 else 0) in Hrb.
    assert (b <= 1) as Hb by (destruct r; cbn; lia).
    assert ((b =? 1) = r) as Hbr by (destruct r; reflexivity).
    clearbody rb b. subst rb.
    set (v := _ + s).
    replace ((v / 2 ^ 7) mod 2 =? 1) with true by lia.
    f_equal; [lia| |f_equal; lia|f_equal; lia|lia].
    rewrite <- Hbr. f_equal. lia.
Qed.

Theorem encode_decode v : v < 2 ^ 29 ->
  let h := set_message_id fresh_header v in
  (legal h /\ can_id h = v) \/ (h_service h = true /\ h_dest h = Some 0).
Proof.
  intros Hv. rewrite set_message_id_arith. cbv zeta.
  destruct ((v / 2 ^ 7) mod 2 =? 1) eqn:E1.
  - destruct (N.eq_dec ((v / 2 ^ 8) mod 128) 0) as [E|E].
    + right. cbn [h_service h_dest]. rewrite E. auto.
    + left. split; [constructor; lia|].
      unfold can_id; cbn [h_priority h_service h_request h_source h_dest h_dtid h_discriminator].
      destruct ((v / 2 ^ 15) mod 2 =? 1) eqn:E2; lia.
  - left. destruct (v mod 128 =? 0) eqn:E2.
    + apply N.eqb_eq in E2. rewrite E2. split; [constructor; lia|].
      unfold can_id; cbn [h_priority h_service h_request h_source h_dest h_dtid h_discriminator].
      cbn [N.eqb]. lia.
    + split; [constructor; lia|].
      unfold can_id; cbn [h_priority h_service h_request h_source h_dest h_dtid h_discriminator].
      rewrite E2. lia.
Qed.

Theorem message_id_range h : legal h -> can_id h < 2 ^ 29.
Proof.
  intros H. destruct H as [p s d Hp Hs Hd|p d disc Hp Hd Hdisc|p r s dst d Hp Hs Hdst Hd];
    unfold can_id; cbn [h_priority h_service h_request h_source h_dest h_dtid h_discriminator].
  - replace (s =? 0) with false by lia. lia.
  - cbn [N.eqb]. lia.
  - destruct r; lia.
Qed.

(** What the code accepts beyond the legal headers collides or is refused. *)
Theorem message_id_refuses h : h_service h = true -> forall v, message_id h = Ok v ->
  h_dtid h <= 0xFF /\ exists d, h_dest h = Some d /\ 1 <= d <= 127.
Proof.
  intros Hs v. unfold message_id. rewrite Hs.
  destruct (h_dtid h <=? 0xFF) eqn:E1; cbn [negb]; [|discriminate].
  destruct (h_dest h) as [d|]; [|discriminate].
  destruct ((1 <=? d) && (d <=? 0x7F)) eqn:E2; cbn [negb]; [|discriminate].
  intros _. split; [lia|]. exists d. split; [reflexivity|lia].
Qed.
