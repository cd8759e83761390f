From Verif.Base Require Import Prelude Bits.
From Verif.Model Require Import Types Float.
From Verif.Spec Require Import FloatSpec.
From Verif.Proofs Require Import FloatFacts.
Local Open Scope Z_scope.

Definition sgn (n : Z) (s : bool) : Z := if s then 2 ^ n else 0.

(** ** float32 numbers *)
Lemma representable mb m k : 0 <= mb -> 0 <= m < 2 * 2 ^ mb -> 0 <= k ->
  exists p, 0 <= p /\ pattern_value mb p = m * 2 ^ k.
Proof.
  intros Hmb Hm Hk. pose proof (pow_pos mb Hmb) as Hp. pose proof (pow_pos k Hk) as Hpk.
  destruct (Z.eq_dec m 0) as [->|Hm0].
  { exists 0. split; [lia|]. rewrite pv_small by lia. lia. }
  pose proof (Z.log2_spec m ltac:(lia)) as [HL1 HL2]. pose proof (Z.log2_nonneg m) as HL0.
  set (L := Z.log2 m) in *.
  assert (L <= mb) as HLm.
  { assert (L < Z.succ mb); [|lia]. apply Z.log2_lt_pow2; [lia|].
    rewrite Z.pow_succ_r by lia. lia. }
  destruct (Z.le_gt_cases (L + k) mb) as [H|H].
  - exists (m * 2 ^ k). split; [nia|]. apply pv_small; [lia|]. split; [nia|].
    assert (m * 2 ^ k < 2 ^ Z.succ L * 2 ^ k) as H1 by nia.
    rewrite <- pow_split in H1 by lia.
    assert (2 ^ (Z.succ L + k) <= 2 ^ Z.succ mb) as H2 by (apply Z.pow_le_mono_r; lia).
    rewrite (Z.pow_succ_r 2 mb) in H2 by lia. lia.
  - exists ((L + k - mb) * 2 ^ mb + m * 2 ^ (mb - L)).
    assert (2 ^ mb = 2 ^ L * 2 ^ (mb - L)) as E1 by (rewrite <- pow_split by lia; f_equal; lia).
    rewrite Z.pow_succ_r in HL2 by lia.
    pose proof (pow_pos (mb - L) ltac:(lia)) as Hq. split; [nia|].
    rewrite pv_binade; [|lia|lia|rewrite E1; nia].
    rewrite <- Z.mul_assoc, <- pow_split by lia. f_equal. f_equal. lia.
Qed.

Lemma pv_inf32 : pattern_value 23 inf32 = 2 ^ 277.
Proof. reflexivity. Qed.
Lemma pv_below p q : 0 <= p -> 0 <= q -> pattern_value 23 p < pattern_value 23 q -> p < q.
Proof.
  intros Hp Hq H. destruct (Z.lt_ge_cases p q) as [|H1]; [assumption|].
  pose proof (pv_le 23 q p ltac:(lia) ltac:(lia)). lia.
Qed.

Lemma pack_finite s m e : 0 <= m -> -1074 <= e -> let p := round_pattern 23 (-149) m e in
  mid_between 23 (2 ^ 925) p (m * 2 ^ (e + 1074)) /\
  pack_f32 (FFin s m e) = (if inf32 <=? p then Err OverflowError else Ok (sgn 31 s + p)).
Proof.
  intros Hm He. split; [|reflexivity].
  pose proof (round_mid 23 (-149) m e (-1074) ltac:(lia) Hm ltac:(lia) ltac:(lia)) as H.
  change (-149 - -1074) with 925 in H. replace (e - -1074) with (e + 1074) in H by lia. exact H.
Qed.

Definition fin32 (m e : Z) : Prop := 0 <= m < 2 ^ 24 /\ -149 <= e <= 104.

Lemma pack_float32 s m e : fin32 m e ->
  exists p, 0 <= p < inf32 /\ pack_f32 (FFin s m e) = Ok (sgn 31 s + p) /\
    pattern_value 23 p = m * 2 ^ (e + 149).
Proof.
  intros [Hm He]. destruct (representable 23 m (e + 149)) as (p & Hp & Ep);
    [lia|change (2 * 2 ^ 23) with (2 ^ 24); lia|lia|].
  assert (p < inf32) as Hlt.
  { apply pv_below; [lia|unfold inf32; lia|]. rewrite pv_inf32, Ep.
    assert (2 ^ (e + 149) <= 2 ^ 253) by (apply Z.pow_le_mono_r; lia).
    pose proof (pow_pos (e + 149) ltac:(lia)).
    change (2 ^ 277) with (2 ^ 24 * 2 ^ 253). nia. }
  exists p. split; [lia|]. split; [|exact Ep].
  pose proof (pack_finite s m e ltac:(lia) ltac:(lia)) as [_ H]. rewrite H.
  rewrite (round_exact 23 (-149) m e (-149) p); try lia.
  - replace (inf32 <=? p) with false by lia. reflexivity.
  - rewrite Ep. change (2 ^ (-149 - -149)) with 1. rewrite Z.mul_1_r. reflexivity.
Qed.

(** ** Encoding with the sign *)
Lemma f16_signed x s p : pack_f32 x = Ok (sgn 31 s + p) -> 0 <= p < 2 ^ 31 ->
  exists h, f16_from_f32 x = Ok (sgn 15 s + h) /\ 0 <= h < 2 ^ 15 /\
    (p < inf32 -> nearest_up h (pattern_value 23 p)) /\
    (p = inf32 -> h = 0x7C00) /\ (inf32 < p -> h = 0x7FFF).
Proof.
  intros E Hp. unfold f16_from_f32. rewrite E. cbn [bind].
  change 0x80000000 with (2 ^ 31). rewrite z_land_pow2 by lia.
  unfold sgn at 1 2 3 4 5 6 7. rewrite (z_testbit_top 31 s p) by lia.
  rewrite (z_lxor_top 31 s p) by lia.
  change (Z.shiftl 255 23) with inf32.
  assert (forall h, 0 <= h < 2 ^ 15 ->
    Z.lor h (Z.land (Z.shiftr (if s then 2 ^ 31 else 0) 16) 0xFFFF) = sgn 15 s + h) as Hs.
  { intros h Hh. unfold sgn. destruct s.
    - change (Z.land (Z.shiftr (2 ^ 31) 16) 0xFFFF) with (1 * 2 ^ 15).
      rewrite z_lor_add by lia. lia.
    - change (Z.land (Z.shiftr 0 16) 0xFFFF) with 0. rewrite Z.lor_0_r. reflexivity. }
  destruct (Z.leb_spec inf32 p) as [H|H].
  - cbn [bind]. destruct (Z.ltb_spec inf32 p) as [H1|H1].
    + exists 0x7FFF. rewrite Hs by lia. repeat split; try lia; try reflexivity.
    + exists 0x7C00. rewrite Hs by lia. repeat split; try lia; try reflexivity.
  - destruct (f16_core p ltac:(lia)) as (h & Eh & Hn). change (Z.shiftl 15 23) with f16_magic.
    exists h. cbv zeta in Eh |- *. rewrite Eh. cbn [bind].
    pose proof Hn as [Hh _]. rewrite Hs by lia.
    split; [reflexivity|]. split; [lia|]. split; [auto|]. split; lia.
Qed.

(** ** Decoding *)
Definition f32_magic : Z := Z.shiftl 239 23.
Lemma f32_magic_value : unpack_f32 f32_magic = FFin false (2 ^ 23) (112 - 23).
Proof. reflexivity. Qed.

Lemma flt_units s m e t n f L : L <= e -> L <= f ->
  flt (FFin s m e) (FFin t n f) =
  (signed_mantissa s m * 2 ^ (e - L) <? signed_mantissa t n * 2 ^ (f - L)).
Proof.
  intros He Hf. cbn [flt]. set (lo := Z.min e f).
  replace (e - L) with ((e - lo) + (lo - L)) by lia. replace (f - L) with ((f - lo) + (lo - L)) by lia.
  rewrite !pow_split by lia. pose proof (pow_pos (lo - L) ltac:(lia)) as Hp.
  set (P := 2 ^ (lo - L)) in *. rewrite !Z.mul_assoc.
  set (a := signed_mantissa s m * 2 ^ (e - lo)). set (b := signed_mantissa t n * 2 ^ (f - lo)).
  destruct (Z.ltb_spec a b), (Z.ltb_spec (a * P) (b * P)); try reflexivity; nia.
Qed.

Lemma pv_shift p : 0 <= p -> pattern_value 23 (p * 2 ^ 13) = pattern_value 10 p * 2 ^ 13.
Proof.
  intros Hp. destruct (pattern_form 10 p ltac:(lia) Hp) as (ex & q & He & -> & -> & [[-> Hq]|Hq]).
  - rewrite pv_small; [|lia|change (2 ^ 10) with 1024 in *; change (2 ^ 13) with 8192; change (2 ^ 23) with 8388608; lia].
    change (2 ^ 0) with 1. lia.
  - replace ((ex * 2 ^ 10 + q) * 2 ^ 13) with (ex * 2 ^ 23 + q * 2 ^ 13)
      by (change (2 ^ 23) with (2 ^ 10 * 2 ^ 13); lia).
    rewrite pv_binade; [lia|lia|lia|].
    change (2 ^ 10) with 1024 in *; change (2 ^ 13) with 8192; change (2 ^ 23) with 8388608; lia.
Qed.

Lemma f32_signed s p : 0 <= p < 2 ^ 15 ->
  exists y, f32_from_f16 (sgn 15 s + p) = Ok (unpack_f32 (sgn 31 s + y)) /\ 0 <= y < 2 ^ 31 /\
    (p < 0x7C00 -> y < inf32 /\ pattern_value 23 y = pattern_value 10 p * 2 ^ 125) /\
    (p = 0x7C00 -> y = inf32) /\ (0x7C00 < p -> inf32 < y).
Proof.
  intros Hp. unfold f32_from_f16.
  assert (Z.land (sgn 15 s + p) 0x7FFF = p) as ->.
  { change 0x7FFF with (Z.ones 15). rewrite Z.land_ones by lia. unfold sgn.
    destruct s; [|apply Z.mod_small; lia].
    rewrite Z.add_comm. rewrite <- (Z.mul_1_l (2 ^ 15)) at 1. rewrite Z.mod_add by lia.
    apply Z.mod_small; lia. }
  assert (Z.shiftl (Z.land (sgn 15 s + p) 0x8000) 16 = sgn 31 s) as ->.
  { change 0x8000 with (2 ^ 15). rewrite z_land_pow2 by lia. unfold sgn.
    rewrite z_testbit_top by lia. destruct s; reflexivity. }
  rewrite Z.shiftl_mul_pow2 by lia. change (Z.shiftl (254 - 15) 23) with f32_magic.
  assert (0 <= p * 2 ^ 13 < inf32) as Hu.
  { unfold inf32. change (2 ^ 15) with 32768 in *. change (2 ^ 13) with 8192. change (2 ^ 23) with 8388608. lia. }
  destruct (scale_mid (p * 2 ^ 13) f32_magic 112 Hu ltac:(lia) f32_magic_value) as (w & Hw & Hpack).
  rewrite pv_shift in Hw by lia. change (172 + 112) with 284 in Hw.
  assert (exists y, 0 <= y < inf32 /\ pattern_value 23 y = pattern_value 10 p * 2 ^ 125 /\
    (0x7C00 <= p -> y = (p - 0x7C00) * 2 ^ 13 + 143 * 2 ^ 23)) as (y & Hy & Ey & Hbig).
  { destruct (Z.le_gt_cases 0x7C00 p) as [H|H].
    - exists ((p - 0x7C00) * 2 ^ 13 + 143 * 2 ^ 23). split; [|split; [|auto]].
      + unfold inf32. change (2 ^ 15) with 32768 in *. change (2 ^ 13) with 8192. change (2 ^ 23) with 8388608. lia.
      + replace p with (30 * 2 ^ 10 + (p - 30 * 2 ^ 10)) at 2 by lia.
        rewrite pv_binade by (change (2 ^ 15) with 32768 in *; change (2 ^ 10) with 1024; lia).
        replace ((p - 0x7C00) * 2 ^ 13 + 143 * 2 ^ 23) with (142 * 2 ^ 23 + (p - 30 * 2 ^ 10) * 2 ^ 13)
          by (change (2 ^ 13) with 8192; change (2 ^ 23) with 8388608; change (2 ^ 10) with 1024; lia).
        rewrite pv_binade; [|lia|lia|change (2 ^ 15) with 32768 in *; change (2 ^ 13) with 8192; change (2 ^ 23) with 8388608;
          change (2 ^ 10) with 1024; lia].
        change (2 ^ 142) with (2 ^ 17 * 2 ^ 125). change (2 ^ 30) with (2 ^ 17 * 2 ^ 13). ring.
    - destruct (pattern_form 10 p ltac:(lia) ltac:(lia)) as (ex & q & He & Ep & Ev & Hq).
      assert (ex <= 29 \/ ex = 0) as Hx by (change (2 ^ 10) with 1024 in *; lia).
      assert (0 <= q < 2 * 2 ^ 10) as Hq0 by (change (2 ^ 10) with 1024 in *; lia).
      destruct (representable 23 q (ex + 125)) as (y & Hy & Ey); [lia| |lia|].
      { change (2 ^ 10) with 1024 in *. change (2 ^ 23) with 8388608. lia. }
      exists y. split; [|split; [|lia]].
      + split; [exact Hy|]. apply pv_below; [lia|unfold inf32; lia|]. rewrite pv_inf32, Ey.
        assert (2 ^ (ex + 125) <= 2 ^ 154) by (apply Z.pow_le_mono_r; lia).
        pose proof (pow_pos (ex + 125) ltac:(lia)).
        assert (q * 2 ^ (ex + 125) <= 2048 * 2 ^ 154) by (change (2 ^ 10) with 1024 in *; nia).
        assert (2048 * 2 ^ 154 < 2 ^ 277) by reflexivity. lia.
      + rewrite Ev, Ey, pow_split by lia. ring. }
  assert (w = y) as Ewy.
  { eapply mid_exact; [| |exact Hw| |]; [lia|lia|lia|]. rewrite Ey.
    change (2 ^ 284) with (2 ^ 112 * 2 ^ 172). change (2 ^ 125) with (2 ^ 13 * 2 ^ 112). ring. }
  subst w. rewrite Hpack by lia. cbn [bind].
  destruct (unpack_form y Hy) as (m & e & Eun & Hm & He & Hv).
  assert (fge (unpack_f32 y) (unpack_f32 (Z.shiftl (127 + 16) 23)) = (0x7C00 <=? p)) as ->.
  { rewrite Eun. change (unpack_f32 (Z.shiftl (127 + 16) 23)) with (FFin false (2 ^ 23) (-7)).
    unfold fge. rewrite (flt_units _ _ _ _ _ _ (-149)) by lia. cbn [signed_mantissa].
    replace (e - -149) with (e + 149) by lia. change (-7 - -149) with 142.
    rewrite Hv, Ey. change (2 ^ 23 * 2 ^ 142) with (2 ^ 40 * 2 ^ 125).
    assert (pattern_value 10 0x7C00 = 2 ^ 40) as Einf by reflexivity.
    destruct (Z.leb_spec 0x7C00 p) as [H|H].
    - pose proof (pv_le 10 0x7C00 p ltac:(lia) ltac:(lia)). rewrite Einf in *.
      rewrite (proj2 (Z.ltb_ge _ _)); [reflexivity|]. apply Z.mul_le_mono_nonneg_r; lia.
    - pose proof (pv_lt 10 p 0x7C00 ltac:(lia) ltac:(lia)). rewrite Einf in *.
      rewrite (proj2 (Z.ltb_lt _ _)); [reflexivity|]. apply Z.mul_lt_mono_pos_r; lia. }
  assert (forall z, 0 <= z < 2 ^ 31 -> Z.lor z (sgn 31 s) = sgn 31 s + z) as Hs.
  { intros z Hz. unfold sgn. destruct s.
    - rewrite <- (Z.mul_1_l (2 ^ 31)) at 1. rewrite z_lor_add by lia. lia.
    - rewrite Z.lor_0_r. reflexivity. }
  destruct (Z.leb_spec 0x7C00 p) as [H|H].
  - specialize (Hbig H). set (f := (p - 0x7C00) * 2 ^ 13) in *.
    assert (0 <= f < 2 ^ 23) as Hf.
    { unfold f. change (2 ^ 15) with 32768 in *. change (2 ^ 13) with 8192. change (2 ^ 23) with 8388608. lia. }
    assert (Z.lor y (Z.shiftl 255 23) = inf32 + f) as ->.
    { rewrite Hbig, <- z_lor_add by lia. rewrite <- Z.lor_assoc.
      change (Z.lor (143 * 2 ^ 23) (Z.shiftl 255 23)) with (255 * 2 ^ 23).
      rewrite z_lor_add by lia. unfold inf32. lia. }
    rewrite Hs by (unfold inf32; change (2 ^ 23) with 8388608 in *; change (2 ^ 31) with (256 * 8388608); lia).
    exists (inf32 + f). split; [reflexivity|].
    split; [unfold inf32; change (2 ^ 23) with 8388608 in *; change (2 ^ 31) with (256 * 8388608); lia|].
    split; [lia|]. split; intros; unfold f in *; change (2 ^ 13) with 8192 in *; lia.
  - assert (inf32 < 2 ^ 31) by reflexivity. rewrite Hs by lia.
    exists y. split; [reflexivity|]. split; [lia|]. split; [intros _; split; [lia|exact Ey]|]. lia.
Qed.

(** ** Numbers of patterns *)
Lemma unpack_signed s y : 0 <= y < inf32 ->
  exists m e, unpack_f32 (sgn 31 s + y) = FFin s m e /\ fin32 m e /\
    m * 2 ^ (e + 149) = pattern_value 23 y.
Proof.
  intros Hy. unfold unpack_f32, sgn.
  change (2 ^ 31) with (2 ^ (23 + 8)). rewrite decode_sign;
    [|lia|lia|unfold inf32 in Hy; change (2 ^ (23 + 8)) with (256 * 2 ^ 23); lia].
  unfold decode_pattern.
  assert (0 <= y < 2 ^ (23 + 8)) as Hy8 by (unfold inf32 in Hy; change (2 ^ (23 + 8)) with (256 * 2 ^ 23); lia).
  pose proof (z_testbit_top (23 + 8) false y ltac:(lia) Hy8) as Ht. cbn iota in Ht. rewrite Z.add_0_l in Ht.
  rewrite Ht. clear Ht. unfold inf32 in Hy.
  change (2 ^ 23) with 8388608 in *. change (2 ^ 8) with 256. change (256 - 1) with 255.
  pose proof (Z.div_mod y 8388608 ltac:(lia)) as Hdm. pose proof (Z.mod_pos_bound y 8388608 ltac:(lia)) as Hb.
  set (ex := y / 8388608) in *. set (fr := y mod 8388608) in *.
  rewrite (Z.mod_small ex) by lia. replace (ex =? 255) with false by lia.
  destruct (Z.eqb_spec ex 0) as [E0|E0]; cbn [apply_sign]; rewrite xorb_false_r.
  - exists fr, (-149). split; [reflexivity|]. split; [split; [change (2 ^ 24) with 16777216; lia|lia]|].
    change (2 ^ (-149 + 149)) with 1.
    rewrite pv_small by (change (2 ^ 23) with 8388608; lia). lia.
  - exists (8388608 + fr), (-149 + ex - 1). split; [reflexivity|].
    split; [split; [change (2 ^ 24) with 16777216; lia|lia]|].
    replace (-149 + ex - 1 + 149) with (ex - 1) by lia.
    rewrite <- (pv_binade 23) by (change (2 ^ 23) with 8388608; lia). f_equal.
    change (2 ^ 23) with 8388608. lia.
Qed.

Lemma unpack_special s y : inf32 <= y < 2 ^ 31 ->
  unpack_f32 (sgn 31 s + y) = if y =? inf32 then FInf s else FNan.
Proof.
  intros Hy. unfold unpack_f32, sgn. change (2 ^ 31) with (2 ^ (23 + 8)) in *.
  assert (0 <= inf32) by (unfold inf32; lia).
  rewrite decode_sign by lia.
  destruct (decode_form 23 8 (-149) y ltac:(lia) ltac:(lia) ltac:(lia)) as (_ & H2 & H3).
  change ((2 ^ 8 - 1) * 2 ^ 23) with inf32 in *.
  destruct (Z.eqb_spec y inf32) as [E|E].
  - rewrite (H2 E). cbn. rewrite xorb_false_r. reflexivity.
  - rewrite H3 by lia. reflexivity.
Qed.

(** ** Reading a float16 *)
Lemma f16_parts h : 0 <= h < 2 ^ 16 ->
  h = sgn 15 (f16_negative h) + f16_magnitude h /\ 0 <= f16_magnitude h < 2 ^ 15.
Proof.
  intros Hh. unfold f16_negative, f16_magnitude, sgn.
  change (2 ^ 16) with 65536 in *. change (2 ^ 15) with 32768.
  destruct (Z.eqb_spec (h / 32768) 1); lia.
Qed.

Lemma f16_parts_of s p : 0 <= p < 2 ^ 15 ->
  f16_negative (sgn 15 s + p) = s /\ f16_magnitude (sgn 15 s + p) = p /\ 0 <= sgn 15 s + p < 2 ^ 16.
Proof.
  intros Hp. unfold f16_negative, f16_magnitude, sgn.
  change (2 ^ 16) with 65536 in *. change (2 ^ 15) with 32768 in *.
  destruct s.
  - destruct (Z.eqb_spec ((32768 + p) / 32768) 1); lia.
  - destruct (Z.eqb_spec ((0 + p) / 32768) 1); lia.
Qed.

Lemma units_fin32 s m e v : fin32 m e -> m * 2 ^ (e + 149) = v ->
  units (FFin s m e) = Some ((if s then -1 else 1) * (v * 2 ^ 925)).
Proof.
  intros [Hm He] <-. cbn [units]. do 2 f_equal.
  rewrite <- Z.mul_assoc, <- pow_split by lia. f_equal. f_equal. lia.
Qed.

Lemma read_f16 h : 0 <= h < 2 ^ 16 ->
  exists x, f32_from_f16 h = Ok x /\ f16_means h x /\
    (f16_finite h -> negative x = f16_negative h /\ exists s m e, x = FFin s m e /\ fin32 m e).
Proof.
  intros Hh. destruct (f16_parts h Hh) as [Eh Hp]. set (s := f16_negative h) in *.
  set (p := f16_magnitude h) in *.
  destruct (f32_signed s p Hp) as (y & E & Hy & H1 & H2 & H3). rewrite <- Eh in E.
  exists (unpack_f32 (sgn 31 s + y)). split; [exact E|].
  unfold f16_means, f16_finite. fold p. fold s.
  destruct (Z.ltb_spec p 0x7C00) as [Hlt|Hge].
  - destruct (H1 Hlt) as [Hy1 Ey]. destruct (unpack_signed s y ltac:(lia)) as (m & e & Eu & Hf & Ev).
    rewrite Eu. split.
    + rewrite (units_fin32 _ _ _ _ Hf Ev). unfold f16_units. fold s. fold p. rewrite Ey.
      change (2 ^ 1050) with (2 ^ 125 * 2 ^ 925). do 2 f_equal. ring.
    + intros _. split; [reflexivity|]. eauto.
  - split; [|lia]. destruct (Z.eqb_spec p 0x7C00) as [Ep|Ep].
    + rewrite (H2 Ep). assert (inf32 < 2 ^ 31) by reflexivity. rewrite unpack_special by lia.
      rewrite Z.eqb_refl. reflexivity.
    + specialize (H3 ltac:(lia)). rewrite unpack_special by lia.
      replace (y =? inf32) with false by lia. reflexivity.
Qed.

(** ** Writing a float16 *)
Lemma nearest_up_exact h p : 0 <= p < 0x7C00 -> nearest_up h (pattern_value 10 p * 2 ^ 125) -> h = p.
Proof.
  intros Hp (Hh & Hlo & Hhi). destruct (Z.lt_trichotomy h p) as [H|[H|H]]; [exfalso|exact H|exfalso].
  - specialize (Hhi ltac:(lia)).
    pose proof (pv_lt 10 h p ltac:(lia) ltac:(lia)). pose proof (pv_le 10 (h + 1) p ltac:(lia) ltac:(lia)). nia.
  - specialize (Hlo ltac:(lia)).
    pose proof (pv_le 10 p (h - 1) ltac:(lia) ltac:(lia)). pose proof (pv_lt 10 p h ltac:(lia) ltac:(lia)). nia.
Qed.

Lemma nearest_up_mono h h' v v' : nearest_up h v -> nearest_up h' v' -> v <= v' -> h <= h'.
Proof.
  intros (Hh & Hlo & _) (Hh' & _ & Hhi') Hv. destruct (Z.le_gt_cases h h') as [|H]; [assumption|exfalso].
  specialize (Hlo ltac:(lia)). specialize (Hhi' ltac:(lia)).
  pose proof (pv_le 10 h' (h - 1) ltac:(lia) ltac:(lia)). pose proof (pv_le 10 (h' + 1) h ltac:(lia) ltac:(lia)). nia.
Qed.

(** The number 65520 in units of 2^-149: the midpoint above 65504. *)
Lemma nearest_up_limit h v : nearest_up h v -> (h < 0x7C00 <-> v < 65520 * 2 ^ 149).
Proof.
  intros (Hh & Hlo & Hhi).
  assert ((pattern_value 10 0x7BFF + pattern_value 10 0x7C00) * 2 ^ 125 = 2 * (65520 * 2 ^ 149)) as E by reflexivity.
  split; intros H.
  - specialize (Hhi H). pose proof (pv_le 10 h 0x7BFF ltac:(lia) ltac:(lia)).
    pose proof (pv_le 10 (h + 1) 0x7C00 ltac:(lia) ltac:(lia)). nia.
  - destruct (Z.eq_dec h 0x7C00) as [->|]; [|lia]. specialize (Hlo ltac:(lia)).
    change (0x7C00 - 1) with 0x7BFF in Hlo. lia.
Qed.

Lemma nearest_up_best h v y : nearest_up h v -> 0 <= v -> h < 0x7C00 -> 0 <= y ->
  Z.abs (pattern_value 10 h * 2 ^ 125 - v) <= Z.abs (pattern_value 10 y * 2 ^ 125 - v).
Proof.
  intros (Hh & Hlo & Hhi) Hv Hlt Hy. apply mid_nearest; [lia|lia| |exact Hy].
  split; [lia|]. split; [exact Hlo|]. specialize (Hhi Hlt). lia.
Qed.

Lemma nearest_up_tie h v y : nearest_up h v -> h < 0x7C00 -> 0 <= y ->
  Z.abs (pattern_value 10 y * 2 ^ 125 - v) <= Z.abs (pattern_value 10 h * 2 ^ 125 - v) -> y <= h.
Proof.
  intros (Hh & Hlo & Hhi) Hlt Hy H. destruct (Z.le_gt_cases y h) as [|H1]; [assumption|exfalso].
  specialize (Hhi Hlt). pose proof (pv_le 10 (h + 1) y ltac:(lia) ltac:(lia)).
  pose proof (pv_lt 10 h (h + 1) ltac:(lia) ltac:(lia)). nia.
Qed.

Lemma units_of s m e : units (FFin s m e) = Some (signum s * (m * 2 ^ (e + 1074))).
Proof. reflexivity. Qed.

(** A double that is a float32 number packs exactly. *)
Lemma pack_is_float32 s m e : is_float32 (FFin s m e) ->
  exists p, 0 <= p < inf32 /\ pack_f32 (FFin s m e) = Ok (sgn 31 s + p) /\
    m * 2 ^ (e + 1074) = pattern_value 23 p * 2 ^ 925.
Proof.
  intros [[Hm He] (m' & e' & Hm' & He' & E)].
  destruct (pack_float32 s m' e' (conj Hm' He')) as (p & Hp & _ & Ep).
  assert (m * 2 ^ (e + 1074) = pattern_value 23 p * 2 ^ 925) as Ev.
  { rewrite E, Ep, <- Z.mul_assoc, <- pow_split by lia. f_equal. f_equal. lia. }
  exists p. split; [exact Hp|]. split; [|exact Ev].
  destruct (pack_finite s m e ltac:(lia) ltac:(lia)) as [Hmid Epk]. rewrite Epk.
  pose proof (mid_exact 23 (2 ^ 925) _ _ p ltac:(lia) (pow_pos 925 ltac:(lia)) Hmid (proj1 Hp) Ev) as ->.
  replace (inf32 <=? p) with false by lia. reflexivity.
Qed.

(** Nearest among magnitudes gives nearest among signed numbers. *)
Lemma signed_nearest s h v : nearest_up h v -> 0 <= v -> h < 0x7C00 ->
  nearest_float16 (signum s * (v * 2 ^ 925)) (sgn 15 s + h).
Proof.
  intros Hn Hv Hlt. pose proof Hn as [Hh _].
  destruct (f16_parts_of s h ltac:(lia)) as (En & Em & Er).
  split; [split; [exact Er|rewrite Em; lia]|]. intros h' [Hr' Hf'].
  destruct (f16_parts h' Hr') as [Eh' Hm']. unfold f16_units. rewrite En, Em.
  set (s' := f16_negative h') in *. set (y := f16_magnitude h') in *.
  change (2 ^ 1050) with (2 ^ 125 * 2 ^ 925).
  pose proof (nearest_up_best h v y Hn Hv Hlt ltac:(lia)) as Hb.
  pose proof (nearest_up_best h v 0 Hn Hv Hlt ltac:(lia)) as Hb0.
  pose proof (nearest_up_tie h v y Hn Hlt ltac:(lia)) as Ht.
  pose proof (nearest_up_tie h v 0 Hn Hlt ltac:(lia)) as Ht0.
  pose proof (pv_nonneg 10 y ltac:(lia) ltac:(lia)) as Hy0.
  assert (pattern_value 10 0 = 0) as E0 by reflexivity. rewrite E0 in Hb0, Ht0.
  assert (pattern_value 10 y = 0 -> y = 0) as Hyz.
  { intros E. apply (pv_inj 10); lia. }
  set (a := pattern_value 10 h) in *. set (b := pattern_value 10 y) in *.
  set (P := 2 ^ 125) in *. set (Q := 2 ^ 925) in *.
  assert (0 < P) by (apply pow_pos; lia). assert (0 < Q) by (apply pow_pos; lia).
  clear Eh'. clearbody s' a b P Q. clearbody y.
  assert (0 <= b * P) as HbP by nia.
  assert (Z.abs (signum s * (a * (P * Q)) - signum s * (v * Q)) = Z.abs (a * P - v) * Q) as Ea.
  { rewrite <- (Z.abs_eq Q) at 3 by lia. rewrite <- Z.abs_mul.
    replace (signum s * (a * (P * Q)) - signum s * (v * Q)) with (signum s * ((a * P - v) * Q)) by ring.
    destruct s; cbn [signum]; rewrite ?Z.mul_1_l; [|reflexivity].
    rewrite Z.abs_mul. change (Z.abs (-1)) with 1. lia. }
  assert (Z.abs (signum s' * (b * (P * Q)) - signum s * (v * Q)) =
          Z.abs (signum s' * signum s * (b * P) - v) * Q) as Eb.
  { rewrite <- (Z.abs_eq Q) at 3 by lia. rewrite <- Z.abs_mul.
    replace (signum s' * (b * (P * Q)) - signum s * (v * Q))
      with (signum s * ((signum s' * signum s * (b * P) - v) * Q)) by (destruct s, s'; cbn [signum]; ring).
    destruct s; cbn [signum]; rewrite ?Z.mul_1_l; [|reflexivity].
    rewrite Z.abs_mul. change (Z.abs (-1)) with 1. lia. }
  replace (if s then -1 else 1) with (signum s) in * by reflexivity.
  replace (if s' then -1 else 1) with (signum s') in * by reflexivity.
  rewrite Ea, Eb.
  assert (Z.abs (a * P - v) <= Z.abs (signum s' * signum s * (b * P) - v) /\
          (Z.abs (a * P - v) = Z.abs (signum s' * signum s * (b * P) - v) -> y <= h)) as [HA HB].
  { destruct (Bool.eqb s s') eqn:Es.
    - apply eqb_prop in Es. subst s'. replace (signum s * signum s * (b * P)) with (b * P)
        by (destruct s; cbn [signum]; lia). split; [exact Hb|]. intros E. apply Ht. lia.
    - replace (signum s' * signum s * (b * P)) with (- (b * P))
        by (destruct s, s'; cbn [signum] in *; try discriminate; lia).
      split; [lia|]. intros E. assert (b * P = 0) as Ez by lia.
      assert (y = 0) as -> by (apply Hyz; nia). apply Ht0. lia. }
  split; [apply Z.mul_le_mono_nonneg_r; lia|]. intros E. apply HB.
  exact (proj1 (Z.mul_cancel_r _ _ Q ltac:(lia)) E).
Qed.

Lemma write_f16 s m e : is_float32 (FFin s m e) ->
  exists h, f16_from_f32 (FFin s m e) = Ok h /\ 0 <= h < 2 ^ 16 /\ f16_negative h = s /\
    let v := m * 2 ^ (e + 1074) in
    (v < 65520 * 2 ^ 1074 -> nearest_float16 (signum s * v) h) /\
    (65520 * 2 ^ 1074 <= v -> f16_magnitude h = 0x7C00).
Proof.
  intros Hx. destruct (pack_is_float32 s m e Hx) as (p & Hp & E & Ev).
  assert (inf32 < 2 ^ 31) by reflexivity.
  destruct (f16_signed _ s p E ltac:(lia)) as (h & Eh & Hh & Hn & _). specialize (Hn ltac:(lia)).
  exists (sgn 15 s + h). destruct (f16_parts_of s h Hh) as (En & Em & Er).
  split; [exact Eh|]. split; [exact Er|]. split; [exact En|]. cbv zeta. rewrite Ev.
  pose proof (pv_nonneg 23 p ltac:(lia) ltac:(lia)) as Hv0.
  pose proof (nearest_up_limit h _ Hn) as Hl. change (2 ^ 1074) with (2 ^ 149 * 2 ^ 925).
  rewrite Z.mul_assoc. set (V := pattern_value 23 p) in *.
  assert (forall a b, a * 2 ^ 925 < b * 2 ^ 925 <-> a < b) as Hc
    by (intros; symmetry; apply Z.mul_lt_mono_pos_r; apply pow_pos; lia).
  split; intros Hlim.
  - apply (proj1 (Hc _ _)) in Hlim. apply signed_nearest; auto. apply Hl. exact Hlim.
  - rewrite Em. assert (65520 * 2 ^ 149 <= V) as Hge.
    { destruct (Z.le_gt_cases (65520 * 2 ^ 149) V) as [|Hgt]; [assumption|]. apply (proj2 (Hc _ _)) in Hgt. lia. }
    pose proof Hn as [Hb _]. clear - Hb Hl Hge. lia.
Qed.

Lemma write_f16_mono s m e t n f h h' :
  is_float32 (FFin s m e) -> is_float32 (FFin t n f) ->
  f16_from_f32 (FFin s m e) = Ok h -> f16_from_f32 (FFin t n f) = Ok h' ->
  signum s * (m * 2 ^ (e + 1074)) <= signum t * (n * 2 ^ (f + 1074)) ->
  f16_units h <= f16_units h'.
Proof.
  intros Hx Hy E E'. assert (inf32 < 2 ^ 31) as Hi by reflexivity.
  destruct (pack_is_float32 s m e Hx) as (p & Hp & Ep & ->).
  destruct (pack_is_float32 t n f Hy) as (p' & Hp' & Ep' & ->).
  destruct (f16_signed _ s p Ep ltac:(lia)) as (k & Ek & Hk & Hn & _). specialize (Hn ltac:(lia)).
  destruct (f16_signed _ t p' Ep' ltac:(lia)) as (k' & Ek' & Hk' & Hn' & _). specialize (Hn' ltac:(lia)).
  rewrite Ek in E. injection E as <-. rewrite Ek' in E'. injection E' as <-.
  destruct (f16_parts_of s k Hk) as (En & Em & _). destruct (f16_parts_of t k' Hk') as (En' & Em' & _).
  unfold f16_units. rewrite En, Em, En', Em'. fold (signum s). fold (signum t).
  pose proof (pv_nonneg 10 k ltac:(lia) ltac:(lia)). pose proof (pv_nonneg 10 k' ltac:(lia) ltac:(lia)).
  pose proof (pv_nonneg 23 p ltac:(lia) ltac:(lia)). pose proof (pv_nonneg 23 p' ltac:(lia) ltac:(lia)).
  assert (pattern_value 23 p <= pattern_value 23 p' -> pattern_value 10 k <= pattern_value 10 k') as Ha.
  { intros Hle. apply pv_le; [lia|]. split; [lia|]. exact (nearest_up_mono _ _ _ _ Hn Hn' Hle). }
  assert (pattern_value 23 p' <= pattern_value 23 p -> pattern_value 10 k' <= pattern_value 10 k) as Hb.
  { intros Hle. apply pv_le; [lia|]. split; [lia|]. exact (nearest_up_mono _ _ _ _ Hn' Hn Hle). }
  assert (pattern_value 23 p = 0 -> pattern_value 10 k = 0) as Hz.
  { intros E0. rewrite E0 in Hn. rewrite (nearest_up_exact k 0 ltac:(lia)); [reflexivity|exact Hn]. }
  assert (pattern_value 23 p' = 0 -> pattern_value 10 k' = 0) as Hz'.
  { intros E0. rewrite E0 in Hn'. rewrite (nearest_up_exact k' 0 ltac:(lia)); [reflexivity|exact Hn']. }
  set (a := pattern_value 10 k) in *. set (b := pattern_value 10 k') in *.
  set (c := pattern_value 23 p) in *. set (d := pattern_value 23 p') in *.
  assert (0 < 2 ^ 925) as HQ by (apply pow_pos; lia). assert (0 < 2 ^ 1050) as HR by (apply pow_pos; lia).
  set (Q := 2 ^ 925) in *. set (R := 2 ^ 1050) in *. clearbody a b c d Q R. intros Hle.
  assert (signum s * c <= signum t * d) as Hcd by (destruct s, t; cbn [signum] in *; nia).
  assert (signum s * a <= signum t * b); [|destruct s, t; cbn [signum] in *; nia].
  destruct s, t; cbn [signum] in *; lia.
Qed.
