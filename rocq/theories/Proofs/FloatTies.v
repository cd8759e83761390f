(** Numbers half-way between two float32 numbers: the even one is stored. *)
From Verif.Base Require Import Prelude Bits.
From Verif.Model Require Import Types Float.
From Verif.Spec Require Import FloatSpec.
From Verif.Proofs Require Import FloatFacts FloatTop FloatFields.
Local Open Scope Z_scope.

Lemma rne_strict m k : 0 <= m -> 1 <= k -> Z.odd (rne m k) = true -> 2 * Z.abs (m - rne m k * 2 ^ k) < 2 ^ k.
Proof.
  intros Hm Hk. unfold rne. pose proof (pow_pos k ltac:(lia)) as Hp.
  assert (2 ^ k = 2 * 2 ^ (k - 1)) as Eh by (rewrite <- Z.pow_succ_r by lia; f_equal; lia).
  pose proof (Z.div_mod m (2 ^ k) ltac:(lia)) as Hdm.
  pose proof (Z.mod_pos_bound m (2 ^ k) Hp) as Hb. cbv zeta.
  set (q := m / 2 ^ k) in *. set (r := m mod 2 ^ k) in *. set (h := 2 ^ (k - 1)) in *.
  set (P := 2 ^ k) in *. clearbody q r h P.
  destruct (Z.ltb_spec r h); [intros _; nia|]. destruct (Z.ltb_spec h r); [intros _; nia|].
  destruct (Z.even q) eqn:Eq.
  - rewrite <- Z.negb_even, Eq. discriminate.
  - replace (q + 1) with (Z.succ q) by lia. rewrite Z.odd_succ, Eq. discriminate.
Qed.

(** An odd pattern is chosen only strictly between the midpoints. *)
Lemma round_odd mb emin m e lo : 1 <= mb -> 0 <= m -> lo <= e -> lo <= emin ->
  let p := round_pattern mb emin m e in let a := m * 2 ^ (e - lo) in let unit := 2 ^ (emin - lo) in
  Z.odd p = true ->
  (pattern_value mb (p - 1) + pattern_value mb p) * unit < 2 * a < (pattern_value mb p + pattern_value mb (p + 1)) * unit.
Proof.
  intros Hmb Hm Hle Hlm p a unit. pose proof (round_mid mb emin m e lo ltac:(lia) Hm Hle Hlm) as Hmid.
  fold p a unit in Hmid. destruct Hmid as (Hp0 & Hlow & Hhigh). revert Hp0 Hlow Hhigh.
  unfold p, round_pattern. clear p. pose proof (pow_pos mb ltac:(lia)) as Hpp.
  assert (0 < unit) as Hu by (apply pow_pos; lia).
  destruct (Z.eqb_spec m 0) as [->|Hm0]; [intros _ _ _ H; discriminate H|].
  set (L := Z.log2 m). pose proof (Z.log2_spec m ltac:(lia)) as [HL1 HL2]. fold L in HL1, HL2.
  assert (0 <= L) as HL0 by apply Z.log2_nonneg.
  set (et := Z.max (L + e - mb) emin). set (ex := et - emin).
  assert (0 <= ex) as Hex by lia.
  set (q := if et <=? e then m * 2 ^ (e - et) else rne m (et - e)).
  set (D := 2 ^ (et - lo)). assert (0 < D) as HD by (apply pow_pos; lia).
  assert (D = 2 ^ ex * unit) as HDu.
  { unfold D, unit, ex. rewrite <- pow_split by lia. f_equal. lia. }
  intros Hp0 Hlow Hhigh Hodd.
  assert (exists B, 2 ^ mb = 2 * B) as (B & HB) by (exists (2 ^ (mb - 1)); rewrite <- Z.pow_succ_r by lia; f_equal; lia).
  assert (Z.odd q = true) as Hq.
  { rewrite Z.odd_add, HB, Z.odd_mul, (Z.odd_mul 2), Bool.andb_false_r, Bool.xorb_false_l in Hodd. exact Hodd. }
  assert (2 * Z.abs (a - q * D) < D) as Hround.
  { unfold q in *. destruct (Z.leb_spec et e) as [H|H].
    - unfold a, D. rewrite <- Z.mul_assoc, <- pow_split by lia.
      replace (e - et + (et - lo)) with (e - lo) by lia. fold D. lia.
    - pose proof (rne_strict m (et - e) Hm ltac:(lia) Hq) as H1.
      unfold a, D. replace (et - lo) with ((et - e) + (e - lo)) by lia. rewrite pow_split by lia.
      pose proof (pow_pos (e - lo) ltac:(lia)) as Hpel. set (E := 2 ^ (e - lo)) in *.
      set (r := rne m (et - e)) in *. set (P := 2 ^ (et - e)) in *.
      replace (m * E - r * (P * E)) with ((m - r * P) * E) by ring.
      rewrite Z.abs_mul, (Z.abs_eq E) by lia. nia. }
  assert (a < 2 * 2 ^ mb * D) as Hahi.
  { assert (a < 2 ^ (Z.succ L) * 2 ^ (e - lo)) as H1.
    { unfold a. pose proof (pow_pos (e - lo) ltac:(lia)). nia. }
    rewrite <- pow_split in H1 by lia.
    assert (2 ^ (Z.succ L + (e - lo)) <= 2 ^ (1 + mb + (et - lo))) as H2
      by (apply Z.pow_le_mono_r; lia).
    rewrite (pow_split (1 + mb)), (pow_split 1) in H2 by lia. change (2 ^ 1) with 2 in H2.
    unfold D. lia. }
  assert (emin < et -> 2 ^ mb * D <= a) as Halo.
  { intros Het. assert (et = L + e - mb) as Ee by lia.
    assert (2 ^ L * 2 ^ (e - lo) <= a) as H1.
    { unfold a. pose proof (pow_pos (e - lo) ltac:(lia)). nia. }
    rewrite <- pow_split in H1 by lia. unfold D. rewrite <- pow_split by lia.
    replace (mb + (et - lo)) with (L + (e - lo)) by lia. exact H1. }
  assert (0 <= a) as Ha by (unfold a; pose proof (pow_pos (e - lo) ltac:(lia)); nia).
  apply Z.odd_spec in Hq as (c & Hc).
  assert (0 <= q) as Hq0 by nia. assert (1 <= q) as Hq1 by lia.
  assert (q <= 2 * 2 ^ mb) as Hqhi by nia.
  assert (q < 2 * 2 ^ mb) as Hqhi' by lia.
  assert (emin < et -> 2 ^ mb < q) as Hqlo.
  { intros Het. specialize (Halo Het). assert (2 ^ mb <= q) by nia. lia. }
  assert (forall d, -1 <= d <= 1 -> pattern_value mb (ex * 2 ^ mb + q + d) * unit = q * D + d * D) as Hval.
  { intros d Hd. replace (ex * 2 ^ mb + q + d) with (ex * 2 ^ mb + (q + d)) by lia.
    destruct (Z.eq_dec et emin) as [E|E].
    - assert (ex = 0) as E0 by lia. rewrite E0 in *. change (2 ^ 0) with 1 in HDu.
      rewrite pv_small by lia. rewrite HDu. lia.
    - specialize (Hqlo ltac:(lia)). rewrite pv_binade by lia. rewrite HDu. ring. }
  pose proof (Hval (-1) ltac:(lia)) as V1. pose proof (Hval 0 ltac:(lia)) as V2. pose proof (Hval 1 ltac:(lia)) as V3.
  rewrite Z.add_0_r in V2. change (ex * 2 ^ mb + q + -1) with (ex * 2 ^ mb + q - 1) in V1.
  rewrite !Z.mul_add_distr_r, V1, V2, V3. clear - Hround. lia.
Qed.

Lemma odd_unique mb unit p a y : 0 <= mb -> 0 < unit -> 0 < p -> 0 <= y ->
  (pattern_value mb (p - 1) + pattern_value mb p) * unit < 2 * a < (pattern_value mb p + pattern_value mb (p + 1)) * unit ->
  y <> p -> Z.abs (pattern_value mb p * unit - a) < Z.abs (pattern_value mb y * unit - a).
Proof.
  intros Hmb Hu Hp Hy H N. destruct (Z.lt_trichotomy y p) as [L|[E|L]]; [|contradiction|].
  - pose proof (pv_le mb y (p - 1) Hmb ltac:(lia)). pose proof (pv_lt mb (p - 1) p Hmb ltac:(lia)). nia.
  - pose proof (pv_le mb (p + 1) y Hmb ltac:(lia)). pose proof (pv_lt mb p (p + 1) Hmb ltac:(lia)). nia.
Qed.


Lemma last_bit w u : 0 <= u -> last (pattern_bits (S w) u) false = Z.odd u.
Proof.
  intros Hu. unfold pattern_bits. cbn [bits_of_N]. rewrite last_last.
  destruct u as [|u|u]; [reflexivity| |lia]. destruct u; reflexivity.
Qed.

Lemma ties32 s m e cm b y w : is_double (FFin s m e) -> let v := signum s * (m * 2 ^ (e + 1074)) in
  m * 2 ^ (e + 1074) <= max32 ->
  set_float 32 cm (FFin s m e) = Ok b -> get_float 32 b = Ok (Some y) -> units y = Some w ->
  forall z wz, is_float32 z -> units z = Some wz -> wz <> w -> Z.abs (w - v) = Z.abs (wz - v) -> last b false = false.
Proof.
  intros Hx v0 Hv Eb Eg Ew z wz Hz Ez Hne Htie. pose proof Hx as [Hm He].
  destruct (pack_finite s m e ltac:(lia) ltac:(lia)) as [Hmid Ep].
  destruct (pack_double s m e Hx Hv) as (p' & Ep' & Hp & _). rewrite Ep in Ep'.
  set (p := round_pattern 23 (-149) m e) in *.
  destruct (Z.leb_spec inf32 p) as [|Hlt]; [discriminate|]. assert (p' = p) as -> by (injection Ep' as Ep'; clear - Ep'; lia). clear Ep'.
  assert (inf32 < 2 ^ 31) as Hi by reflexivity.
  assert (0 <= sgn 31 s + p < 2 ^ Z.of_nat 32) as Hr
    by (unfold sgn; change (2 ^ Z.of_nat 32) with (2 ^ 31 + 2 ^ 31); destruct s; lia).
  destruct (read_pattern 32 (sgn 31 s + p) ltac:(lia) Hr) as (Er & _ & Hnn).
  assert (b = pattern_bits 32 (sgn 31 s + p)) as ->.
  { unfold set_float in Eb. rewrite (cast_finite s m e 32 cm (2 ^ 24 - 1) 104) in Eb by (try lia; reflexivity).
    fold max32 in Eb. replace (max32 <? m * 2 ^ (e + 1074)) with false in Eb by (symmetry; apply Z.ltb_ge; exact Hv).
    cbn [bind] in Eb. rewrite Ep in Eb. cbn [bind] in Eb. rewrite format_pattern in Eb by lia. congruence. }
  assert (y = unpack_f32 (sgn 31 s + p)) as ->.
  { unfold get_float in Eg. destruct (pattern_bits 32 (sgn 31 s + p)); [congruence|]. rewrite Er in Eg. congruence. }
  pose proof (pow_pos (e + 1074) ltac:(lia)) as Hpe.
  assert (0 <= m * 2 ^ (e + 1074)) as Hv0 by nia.
  destruct (unpack_nearest s p (m * 2 ^ (e + 1074)) Hp Hv0 Hmid) as (_ & _ & Eu). rewrite Eu in Ew.
  assert (w = signum s * (pattern_value 23 p * 2 ^ 925)) as -> by congruence. clear Ew Eu.
  rewrite last_bit by lia.
  assert (Z.odd (sgn 31 s + p) = Z.odd p) as ->.
  { rewrite Z.odd_add. unfold sgn. destruct s; [change (Z.odd (2 ^ 31)) with false|change (Z.odd 0) with false]; apply Bool.xorb_false_l. }
  destruct (Z.odd p) eqn:Eo; [exfalso|reflexivity].
  assert (0 < p) as Hp1 by (assert (p <> 0) by (intros E0; rewrite E0 in Eo; discriminate Eo); lia).
  pose proof (round_odd 23 (-149) m e (-1074) ltac:(lia) (proj1 Hm) ltac:(lia) ltac:(lia) Eo) as Hs.
  cbv zeta in Hs. fold p in Hs. change (-149 - -1074) with 925 in Hs. replace (e - -1074) with (e + 1074) in Hs by lia.
  destruct z as [| |t n f]; [discriminate|discriminate|].
  destruct (pack_is_float32 t n f Hz) as (k & Hk & _ & En). rewrite units_of, En in Ez.
  assert (wz = signum t * (pattern_value 23 k * 2 ^ 925)) as -> by congruence. clear Ez En.
  pose proof (odd_unique 23 (2 ^ 925) p _ 0 ltac:(lia) (pow_pos 925 ltac:(lia)) Hp1 ltac:(lia) Hs ltac:(lia)) as U0.
  change (pattern_value 23 0) with 0 in U0. rewrite Z.mul_0_l in U0.
  pose proof (pv_nonneg 23 k ltac:(lia) ltac:(lia)) as Hk0.
  assert (0 <= pattern_value 23 k * 2 ^ 925) as Hb1 by (apply Z.mul_nonneg_nonneg; [lia|apply Z.pow_nonneg; lia]).
  assert (s = t -> k <> p) as Hkp by (intros <- ->; apply Hne; reflexivity).
  pose proof (fun N => odd_unique 23 (2 ^ 925) p _ k ltac:(lia) (pow_pos 925 ltac:(lia)) Hp1 ltac:(lia) Hs N) as U1.
  unfold v0 in Htie. clear Hne Hs Hmid Ep Hv Hr Er Hnn Hx Hz Eb Eg.
  set (a := pattern_value 23 p * 2 ^ 925) in *. set (c := pattern_value 23 k * 2 ^ 925) in *.
  set (v := m * 2 ^ (e + 1074)) in *. clearbody a c v.
  destruct s, t; cbn [signum] in Htie; try (specialize (U1 (Hkp eq_refl))); clear Hkp; lia.
Qed.
