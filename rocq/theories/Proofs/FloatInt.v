(** [float(z)] of an integer is the nearest double. *)
From Verif.Base Require Import Prelude Bits.
From Verif.Model Require Import Types Float Parser.
From Verif.Spec Require Import FloatSpec.
From Verif.Proofs Require Import FloatFacts FloatTop FloatFields GrammarLines.
Local Open Scope Z_scope.

Lemma double_pattern s m e : is_double (FFin s m e) ->
  exists p, 0 <= p /\ units (FFin s m e) = Some (signum s * pattern_value 52 p).
Proof.
  intros [Hm He]. destruct (representable 52 m (e + 1074)) as (p & Hp & Ep); [lia|change (2 * 2 ^ 52) with (2 ^ 53); lia|lia|].
  exists p. split; [exact Hp|]. rewrite units_of, Ep. reflexivity.
Qed.

Lemma float_of_int_shape z x : float_of_int z = Ok x ->
  exists p m e, x = FFin (z <? 0) m e /\ mid_between 52 1 p (Z.abs z * 2 ^ 1074) /\
    units x = Some (signum (z <? 0) * pattern_value 52 p).
Proof.
  intros H. unfold float_of_int in H. apply bind_ok in H as (q & Hq & H). injection H as <-.
  pose proof (round_mid 52 (-1074) (Z.abs z) 0 (-1074) ltac:(lia) ltac:(lia) ltac:(lia) ltac:(lia)) as Hmid.
  change (2 ^ (-1074 - -1074)) with 1 in Hmid. change (0 - -1074) with 1074 in Hmid.
  unfold pack_f64, encode_pattern in Hq. set (p := round_pattern 52 (-1074) (Z.abs z) 0) in *.
  change ((2 ^ 11 - 1) * 2 ^ 52) with inf64 in Hq.
  destruct (Z.leb_spec inf64 p) as [|Hlt]; [discriminate|].
  assert (q = (if z <? 0 then 2 ^ (52 + 11) else 0) + p) as -> by (clear - Hq; congruence).
  assert (inf64 < 2 ^ 63) as Hi by reflexivity. pose proof (proj1 Hmid) as Hp.
  destruct (decode_form 52 11 (-1074) p ltac:(lia) ltac:(lia)) as (Hd & _); [change (2 ^ (52 + 11)) with (2 ^ 63); lia|].
  destruct (Hd Hlt) as (m & e & Ed & Hm & He & Hv).
  assert (unpack_f64 ((if z <? 0 then 2 ^ (52 + 11) else 0) + p) = FFin (z <? 0) m e) as E.
  { unfold unpack_f64. rewrite decode_sign; [|lia|lia|change (2 ^ (52 + 11)) with (2 ^ 63); lia].
    rewrite Ed. cbn [apply_sign]. rewrite xorb_false_r. reflexivity. }
  exists p, m, e. split; [exact E|]. split; [exact Hmid|]. rewrite E, units_of. do 2 f_equal.
  replace (e - -1074) with (e + 1074) in Hv by lia. exact Hv.
Qed.

Lemma float_of_int_nearest z x : float_of_int z = Ok x ->
  is_double x /\ negative x = (z <? 0) /\
  exists w, units x = Some w /\
    forall y wy, is_double y -> units y = Some wy -> Z.abs (w - z * 2 ^ 1074) <= Z.abs (wy - z * 2 ^ 1074).
Proof.
  intros H. split; [exact (float_of_int_double _ _ H)|].
  destruct (float_of_int_shape _ _ H) as (p & m & e & E & Hmid & Hu). split; [rewrite E; reflexivity|].
  eexists. split; [exact Hu|]. intros y wy Hy Ey. destruct y as [| |t n f]; [discriminate|discriminate|].
  destruct (double_pattern t n f Hy) as (q & Hq & Eq). rewrite Eq in Ey. injection Ey as <-.
  pose proof (mid_nearest 52 1 p _ ltac:(lia) ltac:(lia) Hmid q Hq) as Hb.
  pose proof (mid_nearest 52 1 p _ ltac:(lia) ltac:(lia) Hmid 0 ltac:(lia)) as Hb0.
  change (pattern_value 52 0) with 0 in Hb0. rewrite !Z.mul_1_r in Hb. rewrite Z.mul_1_r in Hb0.
  pose proof (pv_nonneg 52 q ltac:(lia) Hq) as Hq0.
  pose proof (pv_nonneg 52 p ltac:(lia) (proj1 Hmid)) as Hp0.
  assert (0 <= 2 ^ 1074) as HP by (apply Z.pow_nonneg; lia).
  assert (z * 2 ^ 1074 = signum (z <? 0) * (Z.abs z * 2 ^ 1074)) as ->.
  { rewrite Z.mul_assoc. f_equal. destruct (Z.ltb_spec z 0); cbn [signum]; lia. }
  assert (0 <= Z.abs z * 2 ^ 1074) as Hv0 by (apply Z.mul_nonneg_nonneg; lia).
  set (a := pattern_value 52 p) in *. set (b := pattern_value 52 q) in *. set (v := Z.abs z * 2 ^ 1074) in *.
  clearbody a b v. clear - Hb Hb0 Hq0 Hp0 Hv0. destruct (z <? 0), t; cbn [signum]; lia.
Qed.

Lemma float_of_int_exact z : Z.abs z < 2 ^ 53 ->
  exists x, float_of_int z = Ok x /\ is_double x /\ units x = Some (z * 2 ^ 1074) /\ negative x = (z <? 0).
Proof.
  intros Hz.
  destruct (representable 52 (Z.abs z) 1074) as (p & Hp & Ep); [lia|change (2 * 2 ^ 52) with (2 ^ 53); lia|lia|].
  assert (p < inf64) as Hlt.
  { destruct (Z.lt_ge_cases p inf64) as [|Hge]; [assumption|exfalso].
    pose proof (pv_le 52 inf64 p ltac:(lia) ltac:(unfold inf64 in *; lia)) as H.
    rewrite pv_inf64, Ep in H. assert (Z.abs z * 2 ^ 1074 <= 2 ^ 53 * 2 ^ 1074) by (apply Z.mul_le_mono_nonneg_r; [apply Z.pow_nonneg; lia|lia]).
    assert (2 ^ 53 * 2 ^ 1074 < 2 ^ 2098) by reflexivity. lia. }
  assert (round_pattern 52 (-1074) (Z.abs z) 0 = p) as Er.
  { apply (round_exact 52 (-1074) (Z.abs z) 0 (-1074) p); [lia|lia|lia|lia|lia|]. rewrite Ep.
    change (2 ^ (-1074 - -1074)) with 1. rewrite Z.mul_1_r. reflexivity. }
  assert (exists x, float_of_int z = Ok x) as (x & Ex).
  { unfold float_of_int, pack_f64, encode_pattern. rewrite Er. change ((2 ^ 11 - 1) * 2 ^ 52) with inf64.
    replace (inf64 <=? p) with false by lia. cbn [bind]. eexists. reflexivity. }
  exists x. split; [exact Ex|]. split; [exact (float_of_int_double _ _ Ex)|].
  destruct (float_of_int_nearest _ _ Ex) as (_ & Hn & w & Hw & Hb). split; [|exact Hn].
  rewrite Hw. f_equal. specialize (Hb (FFin (z <? 0) (Z.abs z) 0) (z * 2 ^ 1074)).
  assert (Z.abs (w - z * 2 ^ 1074) <= Z.abs (z * 2 ^ 1074 - z * 2 ^ 1074)) as H.
  { apply Hb; [split; [lia|lia]|]. rewrite units_of. f_equal. change (0 + 1074) with 1074. rewrite Z.mul_assoc. f_equal.
    destruct (Z.ltb_spec z 0); cbn [signum]; lia. }
  set (v := z * 2 ^ 1074) in *. clearbody v. lia.
Qed.
