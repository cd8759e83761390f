From Verif.Base Require Import Prelude Bits.
From Verif.Model Require Import Types Float.
From Verif.Spec Require Import FloatSpec.
Local Open Scope Z_scope.

Lemma pow_pos n : 0 <= n -> 0 < 2 ^ n.
Proof. intros. apply Z.pow_pos_nonneg; lia. Qed.
Lemma pow_split a b : 0 <= a -> 0 <= b -> 2 ^ (a + b) = 2 ^ a * 2 ^ b.
Proof. intros. apply Z.pow_add_r; lia. Qed.

(** ** The pattern scale *)

(** With exponent field [ex >= 1] (counted from 0 for the first binade above
    the subnormals) and any [q] up to a full carry. *)
Lemma pv_binade mb ex q : 0 <= mb -> 0 <= ex -> 2 ^ mb <= q <= 2 * 2 ^ mb ->
  pattern_value mb (ex * 2 ^ mb + q) = q * 2 ^ ex.
Proof.
  intros Hmb He Hq. pose proof (pow_pos mb Hmb) as Hp. unfold pattern_value.
  replace (ex * 2 ^ mb + q <? 2 ^ mb) with false by nia.
  destruct (Z.eq_dec q (2 * 2 ^ mb)) as [->|Hne].
  - replace (ex * 2 ^ mb + 2 * 2 ^ mb) with ((ex + 2) * 2 ^ mb) by lia.
    rewrite Z.mod_mul, Z.div_mul by lia. replace (ex + 2 - 1) with (1 + ex) by lia.
    rewrite pow_split by lia. lia.
  - replace (ex * 2 ^ mb + q) with ((q - 2 ^ mb) + (ex + 1) * 2 ^ mb) by lia.
    rewrite Z.mod_add, Z.div_add by lia.
    rewrite Z.mod_small, Z.div_small by lia. f_equal; [lia|f_equal; lia].
Qed.

Lemma pv_small mb p : 0 <= mb -> 0 <= p <= 2 * 2 ^ mb -> pattern_value mb p = p.
Proof.
  intros Hmb Hp. destruct (Z.lt_ge_cases p (2 ^ mb)) as [H|H].
  - unfold pattern_value. replace (p <? 2 ^ mb) with true by lia. reflexivity.
  - pose proof (pv_binade mb 0 p Hmb ltac:(lia) ltac:(lia)) as E. change (2 ^ 0) with 1 in E.
    rewrite Z.mul_1_r in E. rewrite <- E at 2. reflexivity.
Qed.

(** Every pattern has such a form. *)
Lemma pattern_form mb p : 0 <= mb -> 0 <= p ->
  exists ex q, 0 <= ex /\ p = ex * 2 ^ mb + q /\ pattern_value mb p = q * 2 ^ ex /\
    ((ex = 0 /\ 0 <= q < 2 * 2 ^ mb) \/ (2 ^ mb <= q < 2 * 2 ^ mb)).
Proof.
  intros Hmb Hp. pose proof (pow_pos mb Hmb) as Hpp.
  destruct (Z.lt_ge_cases p (2 ^ mb)) as [H|H].
  - exists 0, p. rewrite pv_small by lia. change (2 ^ 0) with 1. lia.
  - exists (p / 2 ^ mb - 1), (2 ^ mb + p mod 2 ^ mb).
    pose proof (Z.div_mod p (2 ^ mb) ltac:(lia)) as Hdm.
    pose proof (Z.mod_pos_bound p (2 ^ mb) Hpp) as Hb.
    assert (1 <= p / 2 ^ mb) by (apply Z.div_le_lower_bound; lia).
    assert (p = (p / 2 ^ mb - 1) * 2 ^ mb + (2 ^ mb + p mod 2 ^ mb)) as E by lia.
    split; [lia|]. split; [exact E|]. split; [|lia].
    rewrite E at 1. apply pv_binade; lia.
Qed.

Lemma pv_step mb p : 0 <= mb -> 0 <= p -> exists g, 0 <= g /\
  pattern_value mb (p + 1) = pattern_value mb p + 2 ^ g /\
  (forall ex q, 0 <= ex -> p = ex * 2 ^ mb + q -> 2 ^ mb <= q < 2 * 2 ^ mb -> g = ex) /\
  (p < 2 * 2 ^ mb -> g = 0).
Proof.
  intros Hmb Hp. pose proof (pow_pos mb Hmb) as Hpp.
  destruct (pattern_form mb p Hmb Hp) as (ex & q & He & -> & -> & [[-> Hq]|Hq]).
  - exists 0. split; [lia|]. split; [|split].
    + rewrite pv_small by lia. change (2 ^ 0) with 1. lia.
    + intros ex' q' He' E Hq'. nia.
    + auto.
  - exists ex. split; [exact He|]. split; [|split].
    + replace (ex * 2 ^ mb + q + 1) with (ex * 2 ^ mb + (q + 1)) by lia.
      rewrite pv_binade by lia. lia.
    + intros ex' q' He' E Hq'. nia.
    + intros H. nia.
Qed.

Lemma pv_lt mb p p' : 0 <= mb -> 0 <= p < p' -> pattern_value mb p < pattern_value mb p'.
Proof.
  intros Hmb [Hp H]. assert (forall n, 0 <= n -> pattern_value mb p < pattern_value mb (p + 1 + n)) as Hg.
  { apply natlike_ind.
    - rewrite Z.add_0_r. destruct (pv_step mb p Hmb Hp) as (g & Hg & -> & _).
      pose proof (pow_pos g Hg). lia.
    - intros n Hn IH. replace (p + 1 + Z.succ n) with (p + 1 + n + 1) by lia.
      destruct (pv_step mb (p + 1 + n) Hmb ltac:(lia)) as (g & Hg & -> & _).
      pose proof (pow_pos g Hg). lia. }
  specialize (Hg (p' - p - 1) ltac:(lia)). replace (p + 1 + (p' - p - 1)) with p' in Hg by lia. exact Hg.
Qed.

Lemma pv_le mb p p' : 0 <= mb -> 0 <= p <= p' -> pattern_value mb p <= pattern_value mb p'.
Proof.
  intros Hmb [Hp H]. destruct (Z.eq_dec p p') as [->|]; [lia|].
  pose proof (pv_lt mb p p' Hmb ltac:(lia)). lia.
Qed.

Lemma pv_nonneg mb p : 0 <= mb -> 0 <= p -> 0 <= pattern_value mb p.
Proof.
  intros Hmb Hp. pose proof (pv_le mb 0 p Hmb ltac:(lia)) as H.
  rewrite pv_small in H; [exact H|lia|]. pose proof (pow_pos mb Hmb). lia.
Qed.

Lemma pv_inj mb p p' : 0 <= mb -> 0 <= p -> 0 <= p' ->
  pattern_value mb p = pattern_value mb p' -> p = p'.
Proof.
  intros Hmb Hp Hp' E. destruct (Z.lt_trichotomy p p') as [H|[H|H]]; [|exact H|].
  - pose proof (pv_lt mb p p' Hmb ltac:(lia)). lia.
  - pose proof (pv_lt mb p' p Hmb ltac:(lia)). lia.
Qed.

(** Between the midpoints to its neighbours: nearest. *)
Definition mid_between (mb unit p a : Z) : Prop :=
  0 <= p /\
  (0 < p -> (pattern_value mb (p - 1) + pattern_value mb p) * unit <= 2 * a) /\
  2 * a <= (pattern_value mb p + pattern_value mb (p + 1)) * unit.

Lemma mid_nearest mb unit p a : 0 <= mb -> 0 < unit -> mid_between mb unit p a ->
  forall y, 0 <= y ->
  Z.abs (pattern_value mb p * unit - a) <= Z.abs (pattern_value mb y * unit - a).
Proof.
  intros Hmb Hu (Hp & Hlo & Hhi) y Hy.
  destruct (Z.lt_trichotomy y p) as [H|[->|H]]; [| lia |].
  - specialize (Hlo ltac:(lia)). pose proof (pv_le mb y (p - 1) Hmb ltac:(lia)).
    pose proof (pv_lt mb (p - 1) p Hmb ltac:(lia)). nia.
  - pose proof (pv_le mb (p + 1) y Hmb ltac:(lia)).
    pose proof (pv_lt mb p (p + 1) Hmb ltac:(lia)). nia.
Qed.

Lemma mid_exact mb unit p a y : 0 <= mb -> 0 < unit -> mid_between mb unit p a ->
  0 <= y -> a = pattern_value mb y * unit -> p = y.
Proof.
  intros Hmb Hu H Hy Ea. pose proof (mid_nearest mb unit p a Hmb Hu H y Hy) as Hn.
  destruct H as (Hp & _). apply (pv_inj mb); auto. nia.
Qed.

(** ** Rounding *)
Lemma rne_bounds m k : 0 <= m -> 1 <= k ->
  let q := rne m k in 2 * Z.abs (m - q * 2 ^ k) <= 2 ^ k /\ m / 2 ^ k <= q <= m / 2 ^ k + 1.
Proof.
  intros Hm Hk. unfold rne. pose proof (pow_pos k ltac:(lia)) as Hp.
  assert (2 ^ k = 2 * 2 ^ (k - 1)) as Eh by (rewrite <- Z.pow_succ_r by lia; f_equal; lia).
  pose proof (Z.div_mod m (2 ^ k) ltac:(lia)) as Hdm.
  pose proof (Z.mod_pos_bound m (2 ^ k) Hp) as Hb. cbv zeta.
  set (q := m / 2 ^ k) in *. set (r := m mod 2 ^ k) in *. set (h := 2 ^ (k - 1)) in *.
  set (P := 2 ^ k) in *. clearbody q r h P. dif; split; nia.
Qed.

(** [lo] is any exponent below both. *)
Lemma round_mid mb emin m e lo : 0 <= mb -> 0 <= m -> lo <= e -> lo <= emin ->
  mid_between mb (2 ^ (emin - lo)) (round_pattern mb emin m e) (m * 2 ^ (e - lo)).
Proof.
  intros Hmb Hm Hle Hlm. unfold round_pattern.
  pose proof (pow_pos mb Hmb) as Hpp.
  set (unit := 2 ^ (emin - lo)). assert (0 < unit) as Hu by (apply pow_pos; lia).
  destruct (Z.eqb_spec m 0) as [->|Hm0].
  { split; [lia|]. split; [lia|]. pose proof (pv_nonneg mb 0 Hmb ltac:(lia)).
    pose proof (pv_nonneg mb (0 + 1) Hmb ltac:(lia)). nia. }
  set (L := Z.log2 m). pose proof (Z.log2_spec m ltac:(lia)) as [HL1 HL2]. fold L in HL1, HL2.
  assert (0 <= L) as HL0 by apply Z.log2_nonneg.
  set (et := Z.max (L + e - mb) emin). set (ex := et - emin).
  assert (0 <= ex) as Hex by lia.
  set (q := if et <=? e then m * 2 ^ (e - et) else rne m (et - e)).
  (* everything in units of 2^lo *)
  set (a := m * 2 ^ (e - lo)). set (D := 2 ^ (et - lo)).
  assert (0 < D) as HD by (apply pow_pos; lia).
  assert (D = 2 ^ ex * unit) as HDu.
  { unfold D, unit, ex. rewrite <- pow_split by lia. f_equal. lia. }
  assert (2 * Z.abs (a - q * D) <= D) as Hround.
  { unfold q. destruct (Z.leb_spec et e) as [H|H].
    - unfold a, D. rewrite <- Z.mul_assoc, <- pow_split by lia.
      replace (e - et + (et - lo)) with (e - lo) by lia. lia.
    - destruct (rne_bounds m (et - e) Hm ltac:(lia)) as [H1 _].
      unfold a, D. replace (et - lo) with ((et - e) + (e - lo)) by lia. rewrite pow_split by lia.
      pose proof (pow_pos (e - lo) ltac:(lia)) as Hpel. set (E := 2 ^ (e - lo)) in *.
      set (r := rne m (et - e)) in *. set (P := 2 ^ (et - e)) in *.
      replace (m * E - r * (P * E)) with ((m - r * P) * E) by ring.
      rewrite Z.abs_mul, (Z.abs_eq E) by lia. nia. }
  assert (a < 2 * 2 ^ mb * D) as Hahi.
  { assert (a < 2 ^ (Z.succ L) * 2 ^ (e - lo)) as H1.
    { unfold a. pose proof (pow_pos (e - lo) ltac:(lia)). nia. }
    rewrite <- pow_split in H1 by lia.
    assert (2 ^ (Z.succ L + (e - lo)) <= 2 ^ (1 + mb + (et - lo))) as H2
      by (apply Z.pow_le_mono_r; lia).
    rewrite (pow_split (1 + mb)), (pow_split 1) in H2 by lia. change (2 ^ 1) with 2 in H2.
    unfold D. lia. }
  assert (emin < et -> 2 ^ mb * D <= a) as Halo.
  { intros Het. assert (et = L + e - mb) as Ee by lia.
    assert (2 ^ L * 2 ^ (e - lo) <= a) as H1.
    { unfold a. pose proof (pow_pos (e - lo) ltac:(lia)). nia. }
    rewrite <- pow_split in H1 by lia. unfold D. rewrite <- pow_split by lia.
    replace (mb + (et - lo)) with (L + (e - lo)) by lia. exact H1. }
  assert (0 <= a) as Ha by (unfold a; pose proof (pow_pos (e - lo) ltac:(lia)); nia).
  assert (0 <= q) as Hq0 by nia.
  assert (q <= 2 * 2 ^ mb) as Hqhi by nia.
  assert (emin < et -> 2 ^ mb <= q) as Hqlo by (intros Het; specialize (Halo Het); nia).
  assert (pattern_value mb (ex * 2 ^ mb + q) * unit = q * D) as Hval.
  { destruct (Z.eq_dec et emin) as [E|E].
    - assert (ex = 0) as E0 by lia. rewrite E0 in *. change (2 ^ 0) with 1 in HDu.
      rewrite pv_small by lia. rewrite HDu. lia.
    - rewrite pv_binade by first [lia | split; [apply Hqlo; lia|exact Hqhi]].
      rewrite HDu. ring. }
  assert (0 <= ex * 2 ^ mb + q) as Hp0 by nia.
  split; [exact Hp0|].
  rewrite !Z.mul_add_distr_r, Hval. split.
  - intros Hpos.
    assert (pattern_value mb (ex * 2 ^ mb + q - 1) * unit <= q * D - D \/ q * D <= a /\
            pattern_value mb (ex * 2 ^ mb + q - 1) * unit <= q * D) as H.
    { destruct (Z.eq_dec et emin) as [E|E].
      - left. assert (ex = 0) as E0 by lia. rewrite E0 in *. change (2 ^ 0) with 1 in HDu.
        rewrite pv_small by lia. rewrite HDu. nia.
      - destruct (Z.eq_dec q (2 ^ mb)) as [Eq|Eq].
        + right. split; [rewrite Eq; apply Halo; lia|].
          pose proof (pv_le mb (ex * 2 ^ mb + q - 1) (ex * 2 ^ mb + q) Hmb ltac:(lia)). nia.
        + left. specialize (Hqlo ltac:(lia)).
          replace (ex * 2 ^ mb + q - 1) with (ex * 2 ^ mb + (q - 1)) by lia.
          rewrite pv_binade by lia. rewrite HDu. nia. }
    nia.
  - assert (q * D + D <= pattern_value mb (ex * 2 ^ mb + q + 1) * unit \/ a <= q * D /\
            q * D <= pattern_value mb (ex * 2 ^ mb + q + 1) * unit) as H.
    { destruct (Z.eq_dec q (2 * 2 ^ mb)) as [Eq|Eq].
      - right. split; [nia|].
        pose proof (pv_le mb (ex * 2 ^ mb + q) (ex * 2 ^ mb + q + 1) Hmb ltac:(lia)). nia.
      - left. destruct (Z.eq_dec et emin) as [E|E].
        + assert (ex = 0) as E0 by lia. rewrite E0 in *. change (2 ^ 0) with 1 in HDu.
          rewrite pv_small by lia. rewrite HDu. nia.
        + specialize (Hqlo ltac:(lia)).
          replace (ex * 2 ^ mb + q + 1) with (ex * 2 ^ mb + (q + 1)) by lia.
          rewrite pv_binade by lia. rewrite HDu. nia. }
    nia.
Qed.

Lemma round_exact mb emin m e lo y : 0 <= mb -> 0 <= m -> lo <= e -> lo <= emin -> 0 <= y ->
  m * 2 ^ (e - lo) = pattern_value mb y * 2 ^ (emin - lo) -> round_pattern mb emin m e = y.
Proof.
  intros Hmb Hm H1 H2 Hy E. eapply mid_exact; [exact Hmb| |apply (round_mid mb emin m e lo)|exact Hy|exact E];
    auto. apply pow_pos. lia.
Qed.

(** ** Patterns and numbers *)
Lemma decode_form mb eb emin u : 0 <= mb -> 0 < eb -> 0 <= u < 2 ^ (mb + eb) ->
  (u < (2 ^ eb - 1) * 2 ^ mb ->
     exists m e, decode_pattern mb eb emin u = FFin false m e /\ 0 <= m /\ emin <= e /\
       m * 2 ^ (e - emin) = pattern_value mb u) /\
  (u = (2 ^ eb - 1) * 2 ^ mb -> decode_pattern mb eb emin u = FInf false) /\
  ((2 ^ eb - 1) * 2 ^ mb < u -> decode_pattern mb eb emin u = FNan).
Proof.
  intros Hmb Heb Hu. pose proof (pow_pos mb Hmb) as Hp. pose proof (pow_pos eb ltac:(lia)) as Hpe.
  rewrite pow_split in Hu by lia.
  assert (Z.testbit u (mb + eb) = false) as Hs.
  { destruct (Z.eq_dec u 0) as [->|]; [apply Z.bits_0|].
    apply Z.bits_above_log2; [lia|]. apply Z.log2_lt_pow2; [lia|]. rewrite pow_split by lia. lia. }
  unfold decode_pattern. rewrite Hs.
  pose proof (Z.div_mod u (2 ^ mb) ltac:(lia)) as Hdm.
  pose proof (Z.mod_pos_bound u (2 ^ mb) Hp) as Hb.
  assert (0 <= u / 2 ^ mb < 2 ^ eb) as Hq.
  { split; [apply Z.div_pos; lia|]. apply Z.div_lt_upper_bound; lia. }
  rewrite (Z.mod_small (u / 2 ^ mb)) by exact Hq.
  set (ex := u / 2 ^ mb) in *. set (fr := u mod 2 ^ mb) in *.
  split; [|split].
  - intros H. replace (ex =? 2 ^ eb - 1) with false by nia.
    destruct (Z.eqb_spec ex 0) as [E0|E0].
    + exists fr, emin. split; [reflexivity|]. split; [lia|]. split; [lia|].
      rewrite Z.sub_diag. change (2 ^ 0) with 1.
      rewrite pv_small by nia. nia.
    + exists (2 ^ mb + fr), (emin + ex - 1). split; [reflexivity|]. split; [lia|]. split; [lia|].
      replace (emin + ex - 1 - emin) with (ex - 1) by lia.
      rewrite <- (pv_binade mb) by lia. f_equal. lia.
  - intros H. assert (ex = 2 ^ eb - 1) as Ee by nia.
    rewrite (proj2 (Z.eqb_eq _ _) Ee). assert (fr = 0) as -> by nia. reflexivity.
  - intros H. assert (ex = 2 ^ eb - 1) as Ee by nia.
    rewrite (proj2 (Z.eqb_eq _ _) Ee). destruct (Z.eqb_spec fr 0) as [E0|E0]; [nia|reflexivity].
Qed.

Definition apply_sign (s : bool) (x : pyfloat) : pyfloat :=
  match x with FNan => FNan | FInf t => FInf (xorb s t) | FFin t m e => FFin (xorb s t) m e end.

Lemma decode_sign mb eb emin (s : bool) u : 0 <= mb -> 0 < eb -> 0 <= u < 2 ^ (mb + eb) ->
  decode_pattern mb eb emin ((if s then 2 ^ (mb + eb) else 0) + u) =
  apply_sign s (decode_pattern mb eb emin u).
Proof.
  intros Hmb Heb Hu. destruct s; [|rewrite Z.add_0_l; destruct (decode_pattern mb eb emin u); cbn; try destruct s; reflexivity].
  pose proof (pow_pos mb Hmb) as Hp. pose proof (pow_pos eb ltac:(lia)) as Hpe.
  unfold decode_pattern.
  assert (Z.testbit (2 ^ (mb + eb) + u) (mb + eb) = true) as ->.
  { rewrite Z.testbit_true by lia. replace ((2 ^ (mb + eb) + u) / 2 ^ (mb + eb)) with 1; [reflexivity|].
    apply Z.div_unique with u; lia. }
  assert (Z.testbit u (mb + eb) = false) as ->.
  { rewrite Z.testbit_false by lia. rewrite Z.div_small by lia. reflexivity. }
  assert ((2 ^ (mb + eb) + u) mod 2 ^ mb = u mod 2 ^ mb) as ->.
  { rewrite pow_split by lia. rewrite Z.add_comm, (Z.mul_comm (2 ^ mb)). apply Z.mod_add. lia. }
  assert (((2 ^ (mb + eb) + u) / 2 ^ mb) mod 2 ^ eb = (u / 2 ^ mb) mod 2 ^ eb) as ->.
  { rewrite pow_split by lia. rewrite Z.add_comm, (Z.mul_comm (2 ^ mb)), Z.div_add by lia.
    rewrite <- (Z.mul_1_l (2 ^ eb)) at 1. apply Z.mod_add. lia. }
  dif; reflexivity.
Qed.

(** ** Bits of patterns *)
Lemma z_land_pow2 a n : 0 <= n -> Z.land a (2 ^ n) = if Z.testbit a n then 2 ^ n else 0.
Proof.
  intros Hn. apply Z.bits_inj'. intros i Hi. rewrite Z.land_spec, Z.pow2_bits_eqb by lia.
  destruct (Z.eqb_spec n i) as [->|Hne].
  - destruct (Z.testbit a i); [|rewrite Z.bits_0; reflexivity].
    rewrite Z.pow2_bits_eqb, Z.eqb_refl by lia. reflexivity.
  - rewrite andb_false_r. destruct (Z.testbit a n); [|rewrite Z.bits_0; reflexivity].
    rewrite Z.pow2_bits_eqb by lia. destruct (Z.eqb_spec n i); [contradiction|reflexivity].
Qed.

Lemma z_land_low_high n p k : 0 <= n -> 0 <= p < 2 ^ n -> Z.land p (k * 2 ^ n) = 0.
Proof.
  intros Hn Hp. apply Z.bits_inj'. intros i Hi. rewrite Z.land_spec, Z.bits_0.
  destruct (Z.lt_ge_cases i n) as [H|H].
  - rewrite Z.mul_pow2_bits_low by lia. apply andb_false_r.
  - destruct (Z.eq_dec p 0) as [->|Hp0]; [rewrite Z.bits_0; reflexivity|].
    rewrite Z.bits_above_log2; [reflexivity|lia|].
    enough (Z.log2 p < n) by lia. apply Z.log2_lt_pow2; lia.
Qed.

Lemma z_lor_add n p k : 0 <= n -> 0 <= p < 2 ^ n -> Z.lor p (k * 2 ^ n) = p + k * 2 ^ n.
Proof.
  intros Hn Hp. pose proof (z_land_low_high n p k Hn Hp) as H.
  rewrite Z.add_nocarry_lxor by exact H. symmetry. apply Z.lxor_lor. exact H.
Qed.

Lemma z_testbit_top n (s : bool) p : 0 <= n -> 0 <= p < 2 ^ n ->
  Z.testbit ((if s then 2 ^ n else 0) + p) n = s.
Proof.
  intros Hn Hp. destruct s.
  - rewrite Z.testbit_true by lia. replace ((2 ^ n + p) / 2 ^ n) with 1; [reflexivity|].
    apply Z.div_unique with p; lia.
  - rewrite Z.testbit_false by lia. rewrite Z.div_small by lia. reflexivity.
Qed.

Lemma z_lxor_top n (s : bool) p : 0 <= n -> 0 <= p < 2 ^ n ->
  Z.lxor ((if s then 2 ^ n else 0) + p) (if s then 2 ^ n else 0) = p.
Proof.
  intros Hn Hp. destruct s; [|rewrite Z.lxor_0_r; lia].
  rewrite Z.add_comm. rewrite Z.add_nocarry_lxor.
  - rewrite Z.lxor_assoc, Z.lxor_nilpotent. apply Z.lxor_0_r.
  - pose proof (z_land_low_high n p 1 Hn Hp) as H. rewrite Z.mul_1_l in H. exact H.
Qed.

Lemma mask_low u : 0 <= u -> Z.land u (Z.lnot 0xFFF) = u - u mod 2 ^ 12.
Proof.
  intros Hu. change 0xFFF with (Z.ones 12). rewrite <- Z.ldiff_land, Z.ldiff_ones_r by lia.
  rewrite Z.shiftl_mul_pow2, Z.shiftr_div_pow2 by lia.
  pose proof (Z.div_mod u (2 ^ 12) ltac:(lia)). lia.
Qed.

(** ** Packing a scaled float32 *)
Definition inf32 : Z := 255 * 2 ^ 23.

Lemma unpack_form u : 0 <= u < inf32 ->
  exists m e, unpack_f32 u = FFin false m e /\ 0 <= m /\ -149 <= e /\
    m * 2 ^ (e + 149) = pattern_value 23 u.
Proof.
  intros Hu. destruct (decode_form 23 8 (-149) u) as [H _]; [lia|lia| |].
  { unfold inf32 in Hu. change (2 ^ (23 + 8)) with (256 * 2 ^ 23). lia. }
  destruct H as (m & e & E & Hm & He & Hv); [exact (proj2 Hu)|].
  exists m, e. repeat split; auto.
Qed.

(** Multiplying by [2^k] and packing again: the nearest pattern. *)
Lemma scale_mid u magic k : 0 <= u < inf32 -> -149 <= k ->
  unpack_f32 magic = FFin false (2 ^ 23) (k - 23) ->
  exists w, mid_between 23 (2 ^ 172) w (pattern_value 23 u * 2 ^ (172 + k)) /\
    (w < inf32 -> pack_f32 (fmul (unpack_f32 u) (unpack_f32 magic)) = Ok w).
Proof.
  intros Hu Hk Em. destruct (unpack_form u Hu) as (m & e & E & Hm & He & Hv).
  exists (round_pattern 23 (-149) (m * 2 ^ 23) (e + (k - 23))). split.
  - pose proof (round_mid 23 (-149) (m * 2 ^ 23) (e + (k - 23)) (-321) ltac:(lia) ltac:(nia) ltac:(lia) ltac:(lia)) as H.
    change (-149 - -321) with 172 in H.
    replace (m * 2 ^ 23 * 2 ^ (e + (k - 23) - -321)) with (pattern_value 23 u * 2 ^ (172 + k)) in H; [exact H|].
    rewrite <- Hv, <- !Z.mul_assoc, <- !pow_split by lia. f_equal. f_equal. lia.
  - intros Hw. rewrite E, Em. cbn [fmul xorb]. unfold pack_f32, encode_pattern.
    change ((2 ^ 8 - 1) * 2 ^ 23) with inf32.
    replace (inf32 <=? _) with false by lia. reflexivity.
Qed.

(** ** float32 to float16, without the sign *)
Definition f16_magic : Z := Z.shiftl 15 23.
Lemma f16_magic_value : unpack_f32 f16_magic = FFin false (2 ^ 23) (-112 - 23).
Proof. reflexivity. Qed.

(** Nearest, ties away from zero, the top pattern catching everything above. *)
Definition nearest_up (h v : Z) : Prop :=
  0 <= h <= 0x7C00 /\
  (0 < h -> (pattern_value 10 (h - 1) + pattern_value 10 h) * 2 ^ 125 <= 2 * v) /\
  (h < 0x7C00 -> 2 * v < (pattern_value 10 h + pattern_value 10 (h + 1)) * 2 ^ 125).

Lemma take_bits w : 0 <= w ->
  Z.land (Z.shiftr (if Z.shiftl 31 23 <? w then Z.shiftl 31 23 else w) 13) 0xFFFF =
  Z.min (w / 2 ^ 13) 0x7C00.
Proof.
  intros Hw. change (Z.shiftl 31 23) with (0x7C00 * 2 ^ 13). change 0xFFFF with (Z.ones 16).
  rewrite Z.land_ones, Z.shiftr_div_pow2 by lia.
  destruct (Z.ltb_spec (0x7C00 * 2 ^ 13) w) as [H|H].
  - rewrite Z.div_mul by lia. rewrite Z.min_r; [reflexivity|]. apply Z.div_le_lower_bound; lia.
  - assert (w / 2 ^ 13 <= 0x7C00) as H1.
    { rewrite <- (Z.div_mul 0x7C00 (2 ^ 13)) by lia. apply Z.div_le_mono; lia. }
    assert (0 <= w / 2 ^ 13) by (apply Z.div_pos; lia).
    rewrite Z.mod_small by lia. lia.
Qed.

Lemma half_below A B C p r q : 0 < A -> 0 < B -> 0 < C ->
  p <= (r - 1) * A \/ p <= r * A /\ r * (2 * C) <= q -> (2 * r - 1) * C <= q ->
  (p + r * A) * (2 * C * B) <= 2 * (q * (A * B)).
Proof.
  intros HA HB HC H Hr. assert (0 <= A * B) as HD by nia. assert (0 <= C * B) as HE by nia.
  pose proof (Z.mul_le_mono_nonneg_r _ _ (A * B) HD Hr).
  destruct H as [H|[H H2]].
  - pose proof (Z.mul_le_mono_nonneg_r _ _ (C * B) HE H). lia.
  - pose proof (Z.mul_le_mono_nonneg_r _ _ (C * B) HE H).
    pose proof (Z.mul_le_mono_nonneg_r _ _ (A * B) HD H2). lia.
Qed.

Lemma half_above A B C p r q : 0 < A -> 0 < B -> 0 < C ->
  (r + 1) * A <= p -> q < (2 * r + 1) * C ->
  2 * (q * (A * B)) < (r * A + p) * (2 * C * B).
Proof.
  intros HA HB HC H Hr. assert (0 < A * B) as HD by nia. assert (0 <= C * B) as HE by nia.
  pose proof (Z.mul_le_mono_nonneg_r _ _ (C * B) HE H).
  pose proof (proj1 (Z.mul_lt_mono_pos_r (A * B) _ _ HD) Hr). lia.
Qed.

Lemma f16_core u : 0 <= u < inf32 ->
  exists h, (inval <- pack_f32 (fmul (unpack_f32 (Z.land u (Z.lnot 0xFFF))) (unpack_f32 f16_magic)) ;;
     Ok (Z.land (Z.shiftr (if Z.shiftl 31 23 <? inval - Z.lnot 0xFFF then Z.shiftl 31 23
                           else inval - Z.lnot 0xFFF) 13) 0xFFFF)) = Ok h /\
    nearest_up h (pattern_value 23 u).
Proof.
  intros Hu. rewrite mask_low by lia. set (u' := u - u mod 2 ^ 12).
  pose proof (Z.mod_pos_bound u (2 ^ 12) ltac:(lia)) as Hmb.
  pose proof (Z.mod_le u (2 ^ 12) ltac:(lia) ltac:(lia)) as Hml.
  destruct (scale_mid u' f16_magic (-112)) as (w & Hw & Hpack); [lia|lia|apply f16_magic_value|].
  change (172 + -112) with 60 in Hw.
  destruct (pattern_form 23 u ltac:(lia) ltac:(lia)) as (ex & q & Hex & Eu & -> & Hq).
  set (q' := q - q mod 2 ^ 12).
  pose proof (Z.mod_pos_bound q (2 ^ 12) ltac:(lia)) as Hqm.
  assert (u mod 2 ^ 12 = q mod 2 ^ 12) as Emod.
  { rewrite Eu. replace (ex * 2 ^ 23 + q) with (q + (ex * 2 ^ 11) * 2 ^ 12) by (change (2^23) with (2^11*2^12); lia).
    apply Z.mod_add. lia. }
  assert (u' = ex * 2 ^ 23 + q') as Eu' by (unfold u', q'; lia).
  pose proof (Z.div_mod q (2 ^ 12) ltac:(lia)) as Hqd. set (t := q / 2 ^ 12) in *.
  assert (q' = 2 ^ 12 * t) as Et by (unfold q'; lia).
  assert (0 <= q < 2 * 2 ^ 23) as Hqr by (change (2^23) with 8388608 in *; lia).
  assert (0 <= t < 2 ^ 12) as Ht by (change (2^23) with 8388608 in *; change (2^12) with 4096 in *; lia).
  assert (ex <> 0 -> 2 ^ 11 <= t) as Htl by (intros; change (2^23) with 8388608 in *;
    change (2^12) with 4096 in *; change (2^11) with 2048 in *; lia).
  assert (pattern_value 23 u' = q' * 2 ^ ex) as Ev'.
  { rewrite Eu'. destruct Hq as [[-> Hq]|Hq].
    - rewrite pv_small by (change (2^23) with 8388608 in *; change (2^12) with 4096 in *; lia).
      change (2 ^ 0) with 1. lia.
    - apply pv_binade; [lia|lia|]. change (2^23) with 8388608 in *; change (2^12) with 4096 in *; lia. }
  rewrite Ev' in Hw.
  assert (forall w0, 0 <= w0 < inf32 -> w = w0 ->
    exists h, (inval <- pack_f32 (fmul (unpack_f32 u') (unpack_f32 f16_magic)) ;;
     Ok (Z.land (Z.shiftr (if Z.shiftl 31 23 <? inval - Z.lnot 0xFFF then Z.shiftl 31 23
                           else inval - Z.lnot 0xFFF) 13) 0xFFFF)) = Ok h /\
      h = Z.min ((w0 + 2 ^ 12) / 2 ^ 13) 0x7C00) as Hout.
  { intros w0 Hw0 E0. subst w0. rewrite Hpack by lia. cbn [bind].
    change (w - Z.lnot 0xFFF) with (w - (- 2 ^ 12)). replace (w - (- 2 ^ 12)) with (w + 2 ^ 12) by lia.
    rewrite take_bits by (change (2^12) with 4096; lia). eauto. }
  destruct (Z.le_gt_cases 112 ex) as [H1|H1].
  - (* normal numbers *)
    assert (w = (ex - 112) * 2 ^ 23 + q') as Ew.
    { eapply mid_exact; [| |exact Hw| |]; [lia|lia| |].
      - change (2^23) with 8388608 in *; change (2^12) with 4096 in *; lia.
      - rewrite pv_binade; [|lia|lia|].
        + rewrite <- !Z.mul_assoc, <- !pow_split by lia. f_equal. f_equal. lia.
        + specialize (Htl ltac:(lia)). change (2^23) with 8388608 in *; change (2^12) with 4096 in *;
            change (2^11) with 2048 in *; lia. }
    specialize (Htl ltac:(lia)).
    destruct (Hout ((ex - 112) * 2 ^ 23 + q') ltac:(unfold inf32 in *; change (2^23) with 8388608 in *; change (2^12) with 4096 in *; lia) Ew)
      as (h & Eh & Ehv). exists h. split; [exact Eh|]. rewrite Ehv.
    set (r := (q' + 2 ^ 12) / 2 ^ 13).
    assert (((ex - 112) * 2 ^ 23 + q' + 2 ^ 12) / 2 ^ 13 = (ex - 112) * 2 ^ 10 + r) as ->.
    { replace ((ex - 112) * 2 ^ 23 + q' + 2 ^ 12) with ((q' + 2 ^ 12) + ((ex - 112) * 2 ^ 10) * 2 ^ 13)
        by (change (2 ^ 23) with (2 ^ 10 * 2 ^ 13); lia).
      rewrite Z.div_add by lia. unfold r. lia. }
    assert ((2 * r - 1) * 2 ^ 12 <= q < (2 * r + 1) * 2 ^ 12 /\ 2 ^ 10 <= r <= 2 ^ 11) as [Hr Hrr].
    { unfold r. rewrite Et. replace (2 ^ 12 * t + 2 ^ 12) with ((t + 1) * 2 ^ 12) by lia.
      change (2 ^ 13) with (2 * 2 ^ 12). rewrite Z.div_mul_cancel_r by lia.
      change (2^12) with 4096 in *; change (2^11) with 2048 in *; change (2^10) with 1024; lia. }
    set (h0 := (ex - 112) * 2 ^ 10 + r).
    assert (2 ^ ex = 2 ^ (ex - 112) * 2 ^ 112) as Eex by (rewrite <- pow_split by lia; f_equal; lia).
    pose proof (pow_pos (ex - 112) ltac:(lia)) as HA. set (A := 2 ^ (ex - 112)) in *.
    assert (pattern_value 10 h0 = r * A) as Ep by (apply pv_binade; lia).
    assert (0 < h0) as Hh0 by (unfold h0; change (2^10) with 1024 in *; lia).
    assert ((pattern_value 10 (h0 - 1) + pattern_value 10 h0) * 2 ^ 125 <= 2 * (q * 2 ^ ex)) as Hlo.
    { rewrite Eex, Ep. assert (pattern_value 10 (h0 - 1) <= (r - 1) * A \/
        pattern_value 10 (h0 - 1) <= r * A /\ r * 2 ^ 13 <= q) as H.
      { destruct (Z.eq_dec r (2 ^ 10)) as [Er|Er].
        - right. split; [rewrite <- Ep; apply pv_le; lia|]. rewrite Er.
          change (2^23) with 8388608 in *; change (2 ^ 10 * 2 ^ 13) with 8388608; lia.
        - left. replace (h0 - 1) with ((ex - 112) * 2 ^ 10 + (r - 1)) by lia.
          rewrite pv_binade by lia. lia. }
      change (2 ^ 125) with (2 * 2 ^ 12 * 2 ^ 112). change (2 ^ 13) with (2 * 2 ^ 12) in H.
      apply half_below; try (apply pow_pos; lia); [exact H|exact (proj1 Hr)]. }
    assert (2 * (q * 2 ^ ex) < (pattern_value 10 h0 + pattern_value 10 (h0 + 1)) * 2 ^ 125) as Hhi.
    { rewrite Eex, Ep. assert ((r + 1) * A <= pattern_value 10 (h0 + 1)) as H.
      { destruct (Z.eq_dec r (2 ^ 11)) as [Er|Er].
        - replace (h0 + 1) with ((ex - 112 + 1) * 2 ^ 10 + (2 ^ 10 + 1)) by
            (unfold h0; rewrite Er; change (2 ^ 11) with 2048; change (2 ^ 10) with 1024; lia).
          rewrite pv_binade by (change (2^10) with 1024; lia). rewrite pow_split by lia. fold A.
          rewrite Er. change (2 ^ 1) with 2. change (2 ^ 11) with 2048; change (2 ^ 10) with 1024. lia.
        - replace (h0 + 1) with ((ex - 112) * 2 ^ 10 + (r + 1)) by lia.
          rewrite pv_binade; [unfold A; lia|lia|lia|]. change (2 ^ 11) with (2 * 2 ^ 10) in *. lia. }
      change (2 ^ 125) with (2 * 2 ^ 12 * 2 ^ 112).
      apply half_above; try (apply pow_pos; lia); [exact H|exact (proj2 Hr)]. }
    clearbody h0. destruct (Z.min_spec h0 0x7C00) as [[Hc ->]|[Hc ->]].
    + split; [lia|]. split; auto.
    + split; [lia|]. split; [|lia]. intros _. etransitivity; [|exact Hlo].
      pose proof (pv_le 10 (0x7C00 - 1) (h0 - 1) ltac:(lia) ltac:(lia)).
      pose proof (pv_le 10 0x7C00 h0 ltac:(lia) ltac:(lia)).
      apply Z.mul_le_mono_nonneg_r; [lia|lia].
  - destruct (Z.le_gt_cases 100 ex) as [H2|H2].
    + (* subnormal float16, exactly scaled *)
      specialize (Htl ltac:(lia)).
      set (K := 2 ^ (112 - ex)). set (J := 2 ^ (ex - 100)).
      assert (K * J = 2 ^ 12) as EKJ by (unfold K, J; rewrite <- pow_split by lia; f_equal; lia).
      assert (0 < K) as HK by (apply pow_pos; lia). assert (0 < J) as HJ by (apply pow_pos; lia).
      assert (2 <= K) as HK2.
      { change 2 with (2 ^ 1). apply Z.pow_le_mono_r; lia. }
      assert (w = t * J) as Ew.
      { eapply mid_exact; [| |exact Hw| |]; [lia|lia|nia|].
        rewrite pv_small; [|lia|].
        - rewrite Et. replace (2 ^ 12 * t * 2 ^ ex * 2 ^ 60) with (t * (2 ^ 12 * (2 ^ ex * 2 ^ 60))) by ring.
          rewrite <- Z.mul_assoc. f_equal. unfold J. rewrite <- !pow_split by lia. f_equal. lia.
        - change (2 ^ 23) with (2 ^ 11 * 2 ^ 12). nia. }
      assert (0 <= t * J < 2 ^ 23) as HtJ.
      { change (2 ^ 23) with (2 ^ 12 * 2 ^ 11). change (2 ^ 12) with (2 * 2 ^ 11) in EKJ. nia. }
      destruct (Hout (t * J) ltac:(unfold inf32; change (2 ^ 23) with 8388608 in *; lia) Ew) as (h & Eh & Ehv).
      exists h. split; [exact Eh|]. rewrite Ehv.
      set (h0 := (t * J + 2 ^ 12) / 2 ^ 13).
      assert (0 <= h0 <= 2 ^ 10 /\ (2 * h0 - 1) * 2 ^ 12 <= t * J < (2 * h0 + 1) * 2 ^ 12) as [Hh0 Hh1].
      { unfold h0. change (2 ^ 23) with 8388608 in *. change (2 ^ 12) with 4096. change (2 ^ 13) with 8192.
        change (2 ^ 10) with 1024. lia. }
      rewrite Z.min_l by (change (2 ^ 10) with 1024 in *; lia). clearbody h0.
      assert (2 ^ 112 = K * 2 ^ ex) as EK by (unfold K; rewrite <- pow_split by lia; f_equal; lia).
      pose proof (pow_pos ex Hex) as HX. set (X := 2 ^ ex) in *.
      unfold nearest_up. change (2 ^ 125) with (2 * 2 ^ 12 * 2 ^ 112). rewrite EK.
      set (C := 2 ^ 12) in *. assert (0 < C) as HC by (apply pow_pos; lia).
      assert ((2 * h0 - 1) * K <= t) as HA by nia. assert (t + 1 <= (2 * h0 + 1) * K) as HB by nia.
      assert (C * t <= q < C * (t + 1)) as HQ by lia.
      split; [change (2 ^ 10) with 1024 in *; lia|]. split; intros Hh.
      * rewrite !pv_small by (change (2 ^ 10) with 1024 in *; lia). clearbody X K J C.
        assert ((2 * h0 - 1) * K * C <= q) as HD by nia.
        pose proof (Z.mul_le_mono_nonneg_r _ _ X ltac:(lia) HD). lia.
      * rewrite !pv_small by (change (2 ^ 10) with 1024 in *; lia). clearbody X K J C.
        assert (q < (2 * h0 + 1) * K * C) as HD by nia.
        pose proof (proj1 (Z.mul_lt_mono_pos_r X _ _ HX) HD). lia.
    + (* too small: zero *)
      assert (q' * 2 ^ ex <= (2 ^ 24 - 2 ^ 12) * 2 ^ 99) as Hv'.
      { assert (2 ^ ex <= 2 ^ 99) by (apply Z.pow_le_mono_r; lia). pose proof (pow_pos ex Hex).
        assert (0 <= q' <= 2 ^ 24 - 2 ^ 12) by (change (2 ^ 24) with 16777216; change (2 ^ 12) with 4096 in *; lia).
        nia. }
      assert (w <= 2 ^ 11) as Hw11.
      { destruct Hw as (Hw0 & Hlo & _). destruct (Z.le_gt_cases w (2 ^ 11)) as [H|H]; [exact H|exfalso].
        specialize (Hlo ltac:(change (2^11) with 2048 in *; lia)).
        pose proof (pv_le 23 (2 ^ 11) (w - 1) ltac:(lia) ltac:(lia)) as Ha.
        pose proof (pv_le 23 (2 ^ 11) w ltac:(lia) ltac:(lia)) as Hb.
        rewrite (pv_small 23 (2 ^ 11)) in Ha, Hb by lia.
        change (2 ^ 172) with (2 ^ 13 * 2 ^ 99 * 2 ^ 60) in Hlo. change (2 ^ 24) with (2 ^ 12 * 2 ^ 12) in Hv'.
        set (P := 2 ^ 99) in *. set (Q := 2 ^ 60) in *. set (Y := q' * 2 ^ ex) in *.
        assert (0 < P) as HP by (apply pow_pos; lia). assert (0 < Q) as HQ by (apply pow_pos; lia). clearbody P Q Y.
        change (2 ^ 11) with 2048 in *. change (2 ^ 12) with 4096 in *. change (2 ^ 13) with 8192 in *.
        set (a := pattern_value 23 (w - 1)) in *. set (b := pattern_value 23 w) in *. clearbody a b.
        assert (0 < P * Q) as HPQ by nia.
        pose proof (Z.mul_le_mono_nonneg_r _ _ Q ltac:(lia) Hv').
        assert (4096 * (8192 * (P * Q)) <= (a + b) * (8192 * (P * Q))) by (apply Z.mul_le_mono_nonneg_r; lia).
        lia. }
      destruct Hw as (Hw0 & _ & _).
      destruct (Hout w ltac:(unfold inf32; change (2 ^ 11) with 2048 in *; change (2 ^ 23) with 8388608; lia) eq_refl) as (h & Eh & Ehv).
      exists h. split; [exact Eh|].
      assert (h = 0) as ->.
      { rewrite Ehv. replace ((w + 2 ^ 12) / 2 ^ 13) with 0; [reflexivity|].
        symmetry. apply Z.div_small. change (2 ^ 11) with 2048 in *. change (2 ^ 12) with 4096.
        change (2 ^ 13) with 8192. lia. }
      split; [lia|]. split; [lia|]. intros _. rewrite !pv_small by lia.
      assert (2 ^ ex <= 2 ^ 99) as Hp99 by (apply Z.pow_le_mono_r; lia). pose proof (pow_pos ex Hex).
      change ((0 + (0 + 1)) * 2 ^ 125) with (2 * (2 * 2 ^ 23 * 2 ^ 99) * 2).
      set (P := 2 ^ 99) in *. set (S := 2 ^ 23) in *. set (X := 2 ^ ex) in *. clearbody P S X.
      assert (q * X < 2 * S * P) by nia. nia.
Qed.
