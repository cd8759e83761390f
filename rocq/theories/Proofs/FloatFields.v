From Verif.Base Require Import Prelude Bits.
From Verif.Model Require Import Types Float.
From Verif.Spec Require Import FloatSpec.
From Verif.Proofs Require Import FloatFacts FloatTop.
Local Open Scope Z_scope.

Lemma format_pattern w u : (0 < w)%nat -> 0 <= u < 2 ^ Z.of_nat w ->
  py_format_b w (Z.to_N u) = pattern_bits w u.
Proof.
  intros Hw Hu. apply py_format_b_fit; [exact Hw|].
  apply N2Z.inj_lt. rewrite Z2N.id, N2Z.inj_pow by lia. rewrite nat_N_Z. exact (proj2 Hu).
Qed.

Lemma read_pattern w u : (0 < w)%nat -> 0 <= u < 2 ^ Z.of_nat w ->
  Z.of_N (N_of_bits (pattern_bits w u)) = u /\ length (pattern_bits w u) = w /\ pattern_bits w u <> [].
Proof.
  intros Hw Hu. unfold pattern_bits. split; [|split].
  - rewrite N_of_bits_of_N_small; [rewrite Z2N.id; lia|].
    apply N2Z.inj_lt. rewrite Z2N.id, N2Z.inj_pow by lia. rewrite nat_N_Z. exact (proj2 Hu).
  - apply bits_of_N_length.
  - intros E. pose proof (bits_of_N_length w (Z.to_N u)) as H. rewrite E in H. cbn in H. lia.
Qed.

Lemma pattern_of_bits b : pattern_bits (length b) (Z.of_N (N_of_bits b)) = b.
Proof. unfold pattern_bits. rewrite N2Z.id. apply bits_of_N_of_bits. Qed.

Lemma bits_pattern_range b : 0 <= Z.of_N (N_of_bits b) < 2 ^ Z.of_nat (length b).
Proof.
  split; [lia|]. pose proof (N_of_bits_lt b) as H. apply N2Z.inj_lt in H.
  rewrite N2Z.inj_pow, nat_N_Z in H. exact H.
Qed.

(** ** Casting *)
Lemma cast_finite s m e w cm M E : 0 <= m -> -1074 <= e -> 0 <= M -> -1074 <= E ->
  float_max w = Ok (FFin false M E) ->
  let v := m * 2 ^ (e + 1074) in let V := M * 2 ^ (E + 1074) in
  cast_float (FFin s m e) w cm =
    Ok (if V <? v then match cm with Saturated => FFin s M E | Truncated => FInf s end
        else FFin s m e).
Proof.
  intros Hm He HM HE Hmax v V. unfold cast_float. rewrite Hmax. cbn [bind fneg negb].
  rewrite !(flt_units _ _ _ _ _ _ (-1074)) by lia.
  replace (e - -1074) with (e + 1074) by lia. replace (E - -1074) with (E + 1074) by lia.
  cbn [signed_mantissa].
  pose proof (pow_pos (e + 1074) ltac:(lia)). pose proof (pow_pos (E + 1074) ltac:(lia)).
  assert (0 <= v) as Hv by (unfold v; nia). assert (0 <= V) as HV by (unfold V; nia).
  replace (- M * 2 ^ (E + 1074)) with (- V) by (unfold V; ring). fold V.
  replace (signed_mantissa s m * 2 ^ (e + 1074)) with (signum s * v)
    by (unfold v; destruct s; cbn [signed_mantissa signum]; ring).
  clearbody v V.
  destruct s; cbn [signum].
  - replace (V <? -1 * v) with false by lia.
    destruct (Z.ltb_spec V v) as [Hc|Hc].
    + replace (-1 * v <? - V) with true by lia. destruct cm; reflexivity.
    + replace (-1 * v <? - V) with false by lia. destruct cm; reflexivity.
  - rewrite Z.mul_1_l. replace (v <? - V) with false by lia.
    destruct (V <? v); destruct cm; reflexivity.
Qed.

Lemma cast_special w cm hi : float_max w = Ok hi -> (exists M E, hi = FFin false M E) ->
  cast_float FNan w cm = Ok FNan /\
  forall s, cast_float (FInf s) w cm =
    Ok (match cm with Saturated => if s then fneg hi else hi | Truncated => FInf s end).
Proof.
  intros Hmax (M & E & ->). split.
  - unfold cast_float. rewrite Hmax. destruct cm; reflexivity.
  - intros s. unfold cast_float. rewrite Hmax. cbn [bind fneg negb flt]. destruct cm, s; reflexivity.
Qed.

Lemma max_value16 : 65504 * 2 ^ (0 + 1074) = max16. Proof. reflexivity. Qed.

(** ** float32 fields *)
Lemma pv_max32 : pattern_value 23 (inf32 - 1) * 2 ^ 925 = max32.
Proof. reflexivity. Qed.

(** A double inside the float32 range packs to the nearest float32. *)
Lemma pack_double s m e : is_double (FFin s m e) -> m * 2 ^ (e + 1074) <= max32 ->
  exists p, pack_f32 (FFin s m e) = Ok (sgn 31 s + p) /\ 0 <= p < inf32 /\
    mid_between 23 (2 ^ 925) p (m * 2 ^ (e + 1074)).
Proof.
  intros [Hm He] Hv. destruct (pack_finite s m e ltac:(lia) ltac:(lia)) as [Hmid Ep].
  set (p := round_pattern 23 (-149) m e) in *. pose proof Hmid as (Hp0 & Hlo & _).
  assert (p < inf32) as Hp.
  { destruct (Z.lt_ge_cases p inf32) as [|Hge]; [assumption|exfalso].
    specialize (Hlo ltac:(unfold inf32 in Hge; lia)). rewrite <- pv_max32 in Hv.
    pose proof (pv_le 23 (inf32 - 1) (p - 1) ltac:(lia) ltac:(unfold inf32 in *; lia)).
    pose proof (pv_lt 23 (inf32 - 1) p ltac:(lia) ltac:(unfold inf32 in *; lia)).
    set (a := pattern_value 23 (inf32 - 1)) in *. set (b := pattern_value 23 (p - 1)) in *.
    set (c := pattern_value 23 p) in *. set (v := m * 2 ^ (e + 1074)) in *.
    assert (0 < 2 ^ 925) as HP by (apply pow_pos; lia). set (P := 2 ^ 925) in *.
    clear - Hlo Hv H H0 HP. clearbody a b c v P. nia. }
  exists p. rewrite Ep. replace (inf32 <=? p) with false by lia.
  split; [reflexivity|]. split; [lia|exact Hmid].
Qed.

Lemma fin32_is_float32 s m e : fin32 m e -> is_float32 (FFin s m e).
Proof.
  intros [Hm He]. split.
  - split; [|lia]. split; [lia|]. assert (2 ^ 24 < 2 ^ 53) by reflexivity. lia.
  - exists m, e. auto.
Qed.

Lemma unpack_nearest s p v : 0 <= p < inf32 -> 0 <= v -> mid_between 23 (2 ^ 925) p v ->
  nearest_float32 (signum s * v) (unpack_f32 (sgn 31 s + p)) /\
  negative (unpack_f32 (sgn 31 s + p)) = s /\
  units (unpack_f32 (sgn 31 s + p)) = Some (signum s * (pattern_value 23 p * 2 ^ 925)).
Proof.
  intros Hp Hv Hmid. destruct (unpack_signed s p Hp) as (m & e & -> & Hf & Ev).
  split; [|split; [reflexivity|apply units_fin32; assumption]].
  split; [apply fin32_is_float32; exact Hf|]. eexists. split; [apply (units_fin32 _ _ _ _ Hf Ev)|].
  intros z wz Hz Ez. destruct z as [| |t n f]; [discriminate|discriminate|].
  destruct (pack_is_float32 t n f Hz) as (y & Hy & _ & En). rewrite units_of, En in Ez.
  assert (wz = signum t * (pattern_value 23 y * 2 ^ 925)) as -> by congruence.
  pose proof (mid_nearest 23 (2 ^ 925) p v ltac:(lia) (pow_pos 925 ltac:(lia)) Hmid y (proj1 Hy)) as Hb.
  pose proof (mid_nearest 23 (2 ^ 925) p v ltac:(lia) (pow_pos 925 ltac:(lia)) Hmid 0 ltac:(lia)) as Hb0.
  change (pattern_value 23 0) with 0 in Hb0. rewrite Z.mul_0_l in Hb0.
  pose proof (pv_nonneg 23 y ltac:(lia) ltac:(lia)) as Hy0. fold (signum s).
  assert (0 <= pattern_value 23 y * 2 ^ 925) as Hb1
    by (apply Z.mul_nonneg_nonneg; [lia|apply Z.pow_nonneg; lia]).
  set (a := pattern_value 23 p * 2 ^ 925) in *. set (b := pattern_value 23 y * 2 ^ 925) in *.
  clearbody a b. destruct s, t; cbn [signum]; lia.
Qed.

Lemma set32_finite s m e cm : is_double (FFin s m e) -> m * 2 ^ (e + 1074) <= max32 ->
  exists b y, set_float 32 cm (FFin s m e) = Ok b /\ length b = 32%nat /\ get_float 32 b = Ok (Some y) /\
    nearest_float32 (signum s * (m * 2 ^ (e + 1074))) y /\ negative y = s.
Proof.
  intros Hx Hv. destruct (pack_double s m e Hx Hv) as (p & Ep & Hp & Hmid). destruct Hx as [Hm He].
  assert (inf32 < 2 ^ 31) as Hi by reflexivity.
  assert (0 <= sgn 31 s + p < 2 ^ Z.of_nat 32) as Hr
    by (unfold sgn; change (2 ^ Z.of_nat 32) with (2 ^ 31 + 2 ^ 31); destruct s; lia).
  destruct (read_pattern 32 (sgn 31 s + p) ltac:(lia) Hr) as (Eb & Elen & Hne).
  pose proof (pow_pos (e + 1074) ltac:(lia)).
  destruct (unpack_nearest s p (m * 2 ^ (e + 1074)) Hp ltac:(nia) Hmid) as (Hn & Hs & _).
  exists (pattern_bits 32 (sgn 31 s + p)), (unpack_f32 (sgn 31 s + p)). split; [|split; [exact Elen|split; [|auto]]].
  - unfold set_float. rewrite (cast_finite s m e 32 cm (2 ^ 24 - 1) 104) by (try lia; reflexivity).
    fold max32. replace (max32 <? m * 2 ^ (e + 1074)) with false by (symmetry; apply Z.ltb_ge; exact Hv).
    cbn [bind]. rewrite Ep. cbn [bind]. rewrite format_pattern by lia. reflexivity.
  - unfold get_float. destruct (pattern_bits 32 (sgn 31 s + p)); [congruence|]. rewrite Eb. reflexivity.
Qed.

Lemma set32_large s m e cm : is_double (FFin s m e) -> max32 < m * 2 ^ (e + 1074) ->
  exists b y, set_float 32 cm (FFin s m e) = Ok b /\ length b = 32%nat /\ get_float 32 b = Ok (Some y) /\
    match cm with
    | Saturated => units y = Some (signum s * max32) /\ negative y = s
    | Truncated => y = FInf s
    end.
Proof.
  intros [Hm He] Hv. unfold set_float. rewrite (cast_finite s m e 32 cm (2 ^ 24 - 1) 104) by (try lia; reflexivity).
  fold max32. replace (max32 <? m * 2 ^ (e + 1074)) with true by (symmetry; apply Z.ltb_lt; exact Hv).
  cbn [bind]. destruct cm, s; eexists; eexists;
    (split; [vm_compute; reflexivity|]; split; [reflexivity|]; split; [vm_compute; reflexivity|]);
    try (split; reflexivity); reflexivity.
Qed.

Lemma set32_special cm : 
  (exists b, set_float 32 cm FNan = Ok b /\ length b = 32%nat /\ get_float 32 b = Ok (Some FNan)) /\
  forall s, exists b y, set_float 32 cm (FInf s) = Ok b /\ length b = 32%nat /\ get_float 32 b = Ok (Some y) /\
    match cm with
    | Saturated => units y = Some (signum s * max32) /\ negative y = s
    | Truncated => y = FInf s
    end.
Proof.
  split.
  - destruct cm; eexists; (split; [vm_compute; reflexivity|]; split; [reflexivity|]; vm_compute; reflexivity).
  - intros s. destruct cm, s; eexists; eexists;
    (split; [vm_compute; reflexivity|]; split; [reflexivity|]; split; [vm_compute; reflexivity|]);
    try (split; reflexivity); reflexivity.
Qed.

(** ** float64 fields *)
Definition inf64 : Z := 2047 * 2 ^ 52.
Lemma pv_inf64 : pattern_value 52 inf64 = 2 ^ 2098.
Proof. reflexivity. Qed.

Lemma set64_finite s m e cm : is_double (FFin s m e) ->
  exists b y, set_float 64 cm (FFin s m e) = Ok b /\ length b = 64%nat /\ get_float 64 b = Ok (Some y) /\
    units y = units (FFin s m e) /\ negative y = s.
Proof.
  intros [Hm He]. pose proof (pow_pos (e + 1074) ltac:(lia)) as Hpe.
  assert (m * 2 ^ (e + 1074) <= (2 ^ 53 - 1) * 2 ^ 2045) as Hle.
  { assert (2 ^ (e + 1074) <= 2 ^ 2045) by (apply Z.pow_le_mono_r; lia).
    apply Z.mul_le_mono_nonneg; lia. }
  destruct (representable 52 m (e + 1074)) as (p & Hp & Ep); [lia|change (2 * 2 ^ 52) with (2 ^ 53); lia|lia|].
  assert (p < inf64) as Hlt.
  { destruct (Z.lt_ge_cases p inf64) as [|Hge]; [assumption|exfalso].
    pose proof (pv_le 52 inf64 p ltac:(lia) ltac:(unfold inf64 in *; lia)) as H.
    rewrite pv_inf64, Ep in H.
    assert ((2 ^ 53 - 1) * 2 ^ 2045 < 2 ^ 2098) by reflexivity. lia. }
  assert (round_pattern 52 (-1074) m e = p) as Er.
  { apply (round_exact 52 (-1074) m e (-1074) p); try lia. rewrite Ep.
    change (2 ^ (-1074 - -1074)) with 1. rewrite Z.mul_1_r. f_equal. }
  assert (inf64 < 2 ^ 63) as Hi by reflexivity.
  assert (0 <= sgn 63 s + p < 2 ^ Z.of_nat 64) as Hr
    by (unfold sgn; change (2 ^ Z.of_nat 64) with (2 ^ 63 + 2 ^ 63); destruct s; lia).
  destruct (read_pattern 64 (sgn 63 s + p) ltac:(lia) Hr) as (Eb & Elen & Hne).
  destruct (decode_form 52 11 (-1074) p ltac:(lia) ltac:(lia)) as (Hd & _); [change (2 ^ (52 + 11)) with (2 ^ 63); lia|].
  destruct (Hd Hlt) as (m' & e' & Ed & Hm' & He' & Hv').
  exists (pattern_bits 64 (sgn 63 s + p)), (FFin s m' e'). split; [|split; [exact Elen|split; [|split; [|reflexivity]]]].
  - unfold set_float. rewrite (cast_finite s m e 64 cm (2 ^ 53 - 1) 971) by (try lia; reflexivity).
    replace (_ <? m * 2 ^ (e + 1074)) with false by (symmetry; apply Z.ltb_ge; exact Hle).
    cbn [bind]. unfold pack_f64, encode_pattern. rewrite Er.
    change ((2 ^ 11 - 1) * 2 ^ 52) with inf64. replace (inf64 <=? p) with false by lia.
    cbn [bind]. change (if s then 2 ^ (52 + 11) else 0) with (sgn 63 s).
    rewrite format_pattern by lia. reflexivity.
  - unfold get_float. destruct (pattern_bits 64 (sgn 63 s + p)); [congruence|]. rewrite Eb.
    unfold unpack_f64, sgn. change (2 ^ 63) with (2 ^ (52 + 11)). rewrite decode_sign;
      [|lia|lia|change (2 ^ (52 + 11)) with (2 ^ 63); lia].
    rewrite Ed. cbn [apply_sign]. rewrite xorb_false_r. reflexivity.
  - rewrite !units_of. do 2 f_equal. replace (e' - -1074) with (e' + 1074) in Hv' by lia. rewrite Hv', Ep. reflexivity.
Qed.

Lemma set64_special cm :
  (exists b, set_float 64 cm FNan = Ok b /\ length b = 64%nat /\ get_float 64 b = Ok (Some FNan)) /\
  forall s, exists b y, set_float 64 cm (FInf s) = Ok b /\ length b = 64%nat /\ get_float 64 b = Ok (Some y) /\
    match cm with
    | Saturated => units y = Some (signum s * max64) /\ negative y = s
    | Truncated => y = FInf s
    end.
Proof.
  split.
  - destruct cm; eexists; (split; [vm_compute; reflexivity|]; split; [reflexivity|]; vm_compute; reflexivity).
  - intros s. destruct cm, s; eexists; eexists;
    (split; [vm_compute; reflexivity|]; split; [reflexivity|]; split; [vm_compute; reflexivity|]);
    try (split; reflexivity); reflexivity.
Qed.

(** ** float16 fields *)
Lemma set16_finite s m e cm : is_double (FFin s m e) -> m * 2 ^ (e + 1074) <= max16 ->
  exists y w h, nearest_float32 (signum s * (m * 2 ^ (e + 1074))) y /\ units y = Some w /\
    nearest_float16 w h /\ f16_negative h = s /\
    set_float 16 cm (FFin s m e) = Ok (pattern_bits 16 h).
Proof.
  intros Hx Hv. assert (max16 <= max32) as Hmm by (vm_compute; discriminate).
  destruct (pack_double s m e Hx ltac:(lia)) as (p & Ep & Hp & Hmid). pose proof Hx as [Hm He].
  assert (inf32 < 2 ^ 31) as Hi by reflexivity.
  pose proof (pow_pos (e + 1074) ltac:(lia)) as Hpe. assert (0 <= m * 2 ^ (e + 1074)) as Hv0 by nia.
  destruct (unpack_nearest s p (m * 2 ^ (e + 1074)) Hp Hv0 Hmid) as (Hn & Hs & Hu).
  destruct (f16_signed _ s p Ep ltac:(lia)) as (h & Eh & Hh & Hnu & _). specialize (Hnu ltac:(lia)).
  exists (unpack_f32 (sgn 31 s + p)), (signum s * (pattern_value 23 p * 2 ^ 925)), (sgn 15 s + h).
  destruct (f16_parts_of s h Hh) as (En & Em & Er).
  split; [exact Hn|]. split; [exact Hu|]. split; [|split; [exact En|]].
  - apply signed_nearest; [exact Hnu|apply pv_nonneg; lia|]. apply (nearest_up_limit h _ Hnu).
    (* p rounds to at most 65504 *)
    assert (pattern_value 23 0x477FE000 * 2 ^ 925 = max16) as E16 by reflexivity.
    assert (p <= 0x477FE000) as Hp16.
    { destruct (Z.le_gt_cases p 0x477FE000) as [|Hgt]; [assumption|exfalso].
      destruct Hmid as (_ & Hlo & _). specialize (Hlo ltac:(lia)).
      pose proof (pv_le 23 0x477FE000 (p - 1) ltac:(lia) ltac:(lia)).
      pose proof (pv_lt 23 0x477FE000 p ltac:(lia) ltac:(lia)).
      rewrite <- E16 in Hv.
      set (a := pattern_value 23 0x477FE000) in *. set (b := pattern_value 23 (p - 1)) in *.
      set (c := pattern_value 23 p) in *. set (v := m * 2 ^ (e + 1074)) in *.
      assert (0 < 2 ^ 925) as HP by (apply pow_pos; lia). set (P := 2 ^ 925) in *.
      clear - Hlo Hv H H0 HP. clearbody a b c v P. nia. }
    pose proof (pv_le 23 p 0x477FE000 ltac:(lia) ltac:(lia)) as Hple.
    assert (pattern_value 23 0x477FE000 < 65520 * 2 ^ 149) by reflexivity. lia.
  - unfold set_float. rewrite (cast_finite s m e 16 cm 65504 0) by (try lia; reflexivity).
    rewrite max_value16. replace (max16 <? m * 2 ^ (e + 1074)) with false by (symmetry; apply Z.ltb_ge; exact Hv).
    cbn [bind]. rewrite Eh. cbn [bind]. rewrite format_pattern by (try lia; exact Er). reflexivity.
Qed.

Lemma set16_large s m e cm : is_double (FFin s m e) -> max16 < m * 2 ^ (e + 1074) ->
  exists h, set_float 16 cm (FFin s m e) = Ok (pattern_bits 16 h) /\ f16_negative h = s /\ 0 <= h < 2 ^ 16 /\
    match cm with
    | Saturated => f16_finite h /\ f16_units h = signum s * max16
    | Truncated => f16_magnitude h = 0x7C00
    end.
Proof.
  intros [Hm He] Hv. unfold set_float. rewrite (cast_finite s m e 16 cm 65504 0) by (try lia; reflexivity).
  rewrite max_value16. replace (max16 <? m * 2 ^ (e + 1074)) with true by (symmetry; apply Z.ltb_lt; exact Hv).
  cbn [bind]. exists (sgn 15 s + match cm with Saturated => 0x7BFF | Truncated => 0x7C00 end).
  destruct cm, s; (split; [vm_compute; reflexivity|]; split; [reflexivity|]; split; [vm_compute; split; congruence|]);
    try reflexivity; (split; [split; [vm_compute; split; congruence|reflexivity]|vm_compute; reflexivity]).
Qed.

Lemma set16_special cm :
  (exists h, set_float 16 cm FNan = Ok (pattern_bits 16 h) /\ 0 <= h < 2 ^ 16 /\ f16_nan h) /\
  forall s, exists h, set_float 16 cm (FInf s) = Ok (pattern_bits 16 h) /\ f16_negative h = s /\ 0 <= h < 2 ^ 16 /\
    match cm with
    | Saturated => f16_finite h /\ f16_units h = signum s * max16
    | Truncated => f16_magnitude h = 0x7C00
    end.
Proof.
  split.
  - exists 0x7FFF. split; [destruct cm; vm_compute; reflexivity|]. split; [lia|reflexivity].
  - intros s. exists (sgn 15 s + match cm with Saturated => 0x7BFF | Truncated => 0x7C00 end).
    destruct cm, s; (split; [vm_compute; reflexivity|]; split; [reflexivity|]; split; [vm_compute; split; congruence|]);
    try reflexivity; (split; [split; [vm_compute; split; congruence|reflexivity]|vm_compute; reflexivity]).
Qed.

Lemma get16 b : length b = 16%nat ->
  exists x, get_float 16 b = Ok (Some x) /\ f16_means (Z.of_N (N_of_bits b)) x.
Proof.
  intros Hl. pose proof (bits_pattern_range b) as Hr. rewrite Hl in Hr. change (Z.of_nat 16) with 16 in Hr.
  destruct (read_f16 _ Hr) as (x & E & Hm & _). exists x. split; [|exact Hm].
  unfold get_float. destruct b; [discriminate|]. rewrite E. reflexivity.
Qed.

Lemma f16_units_le h : f16_finite h -> Z.abs (f16_units h) <= max16.
Proof.
  intros [Hr Hf]. destruct (f16_parts h Hr) as [_ Hm]. unfold f16_units.
  pose proof (pv_le 10 (f16_magnitude h) 0x7BFF ltac:(lia) ltac:(lia)) as H.
  pose proof (pv_nonneg 10 (f16_magnitude h) ltac:(lia) ltac:(lia)) as H0.
  assert (pattern_value 10 0x7BFF * 2 ^ 1050 = max16) as E by reflexivity. rewrite <- E.
  set (a := pattern_value 10 (f16_magnitude h)) in *. set (c := pattern_value 10 0x7BFF) in *.
  assert (0 < 2 ^ 1050) as HP by (apply pow_pos; lia). set (P := 2 ^ 1050) in *.
  assert (a * P <= c * P) by (apply Z.mul_le_mono_nonneg_r; lia).
  assert (0 <= a * P) by (apply Z.mul_nonneg_nonneg; lia).
  clearbody a c P. destruct (f16_negative h); cbn [signum]; lia.
Qed.

Lemma write_back_finite h s m e : f16_finite h -> f32_from_f16 h = Ok (FFin s m e) ->
  f16_from_f32 (FFin s m e) = Ok h /\ forall cm, set_float 16 cm (FFin s m e) = Ok (pattern_bits 16 h).
Proof.
  intros Hf E. destruct (read_f16 h (proj1 Hf)) as (x & Ex & Hm & Hx). rewrite E in Ex. injection Ex as <-.
  destruct (Hx Hf) as (Hs & s' & m' & e' & Ei & Hfin). injection Ei as <- <- <-.
  cbn [negative] in Hs. unfold f16_means in Hm.
  replace (f16_magnitude h <? 0x7C00) with true in Hm by (symmetry; apply Z.ltb_lt; exact (proj2 Hf)).
  rewrite units_of in Hm. assert (signum s * (m * 2 ^ (e + 1074)) = f16_units h) as Hm1 by congruence.
  clear Hm. rename Hm1 into Hm.
  destruct (f16_parts h (proj1 Hf)) as [Eh Hmag].
  destruct (pack_is_float32 s m e (fin32_is_float32 _ _ _ Hfin)) as (p & Hp & Ep & Ev).
  assert (inf32 < 2 ^ 31) as Hi by reflexivity.
  destruct (f16_signed _ s p Ep ltac:(lia)) as (k & Ek & Hk & Hn & _). specialize (Hn ltac:(lia)).
  assert (pattern_value 23 p = pattern_value 10 (f16_magnitude h) * 2 ^ 125) as Evv.
  { unfold f16_units in Hm. rewrite <- Hs in Hm. fold (signum s) in Hm. rewrite Ev in Hm.
    change (2 ^ 1050) with (2 ^ 125 * 2 ^ 925) in Hm. rewrite (Z.mul_assoc _ (2 ^ 125)) in Hm.
    assert (signum s <> 0) as Hsn by (destruct s; discriminate).
    apply Z.mul_reg_l in Hm; [|exact Hsn]. apply Z.mul_reg_r in Hm; [exact Hm|].
    pose proof (pow_pos 925 ltac:(lia)). lia. }
  rewrite Evv in Hn. apply nearest_up_exact in Hn; [|destruct Hf; lia]. subst k.
  rewrite Hs, <- Eh in Ek. rewrite Hs. split; [exact Ek|].
  intros cm. unfold set_float. destruct Hfin as [Hmr He].
  rewrite (cast_finite _ m e 16 cm 65504 0) by (try lia; reflexivity). rewrite max_value16.
  assert (m * 2 ^ (e + 1074) <= max16) as Hle.
  { pose proof (f16_units_le h Hf) as H. rewrite <- Hm in H.
    pose proof (pow_pos (e + 1074) ltac:(lia)). assert (0 <= m * 2 ^ (e + 1074)) by nia.
    destruct s; cbn [signum] in H; lia. }
  replace (max16 <? m * 2 ^ (e + 1074)) with false by (symmetry; apply Z.ltb_ge; exact Hle).
  cbn [bind]. rewrite Ek. cbn [bind]. rewrite format_pattern by (try lia; exact (proj1 Hf)). reflexivity.
Qed.

(** ** Together *)
Lemma functions_back h : 0 <= h < 2 ^ 16 ->
  exists x, f32_from_f16 h = Ok x /\ f16_means h x /\
    (~ f16_nan h -> f16_from_f32 x = Ok h) /\
    (f16_nan h -> exists h', f16_from_f32 x = Ok h' /\ f16_nan h').
Proof.
  intros Hh. destruct (read_f16 h Hh) as (x & E & Hm & Hx). exists x. split; [exact E|]. split; [exact Hm|].
  unfold f16_means in Hm. unfold f16_nan. destruct (f16_parts h Hh) as [Eh Hmag].
  destruct (Z.ltb_spec (f16_magnitude h) 0x7C00) as [H|H].
  - split; [|lia]. intros _. destruct (Hx (conj Hh H)) as (_ & s & m & e & -> & _).
    apply (write_back_finite h s m e (conj Hh H) E).
  - destruct (Z.eqb_spec (f16_magnitude h) 0x7C00) as [E1|E1]; subst x.
    + split; [|lia]. intros _. rewrite Eh at 2. rewrite E1. destruct (f16_negative h); reflexivity.
    + split; [lia|]. intros _. exists 0x7FFF. split; reflexivity.
Qed.

Lemma field_back b : length b = 16%nat -> let h := Z.of_N (N_of_bits b) in
  exists x, get_float 16 b = Ok (Some x) /\ f16_means h x /\
    (f16_finite h -> forall cm, set_float 16 cm x = Ok b) /\
    (f16_magnitude h = 0x7C00 -> set_float 16 Truncated x = Ok b) /\
    (f16_nan h -> forall cm, exists h', set_float 16 cm x = Ok (pattern_bits 16 h') /\ f16_nan h').
Proof.
  intros Hl h. pose proof (bits_pattern_range b) as Hr. rewrite Hl in Hr. change (Z.of_nat 16) with 16 in Hr.
  fold h in Hr. pose proof (pattern_of_bits b) as Eb. rewrite Hl in Eb. fold h in Eb.
  destruct (read_f16 h Hr) as (x & E & Hm & Hx).
  assert (get_float 16 b = Ok (Some x)) as Eg.
  { unfold get_float. destruct b; [discriminate|]. fold h. rewrite E. reflexivity. }
  exists x. split; [exact Eg|]. split; [exact Hm|]. split; [|split].
  - intros Hf cm. destruct (Hx Hf) as (_ & s & m & e & -> & _).
    rewrite (proj2 (write_back_finite h s m e Hf E) cm). f_equal. exact Eb.
  - intros E1. unfold f16_means in Hm. rewrite E1 in Hm. cbn in Hm. subst x.
    destruct (f16_parts h Hr) as [Eh _]. rewrite E1 in Eh. rewrite <- Eb. rewrite Eh at 2.
    destruct (f16_negative h); vm_compute; reflexivity.
  - intros Hn cm. unfold f16_means, f16_nan in *.
    destruct (Z.ltb_spec (f16_magnitude h) 0x7C00); [lia|].
    destruct (Z.eqb_spec (f16_magnitude h) 0x7C00); [lia|]. subst x.
    destruct (set16_special cm) as [(h' & E' & _ & Hn') _]. exists h'. auto.
Qed.

Lemma write_f16_monotone x y vx vy h h' : is_float32 x -> is_float32 y ->
  units x = Some vx -> units y = Some vy -> vx <= vy ->
  f16_from_f32 x = Ok h -> f16_from_f32 y = Ok h' -> f16_units h <= f16_units h'.
Proof.
  intros Hx Hy Ex Ey Hle E E'. destruct x as [| |s m e]; try discriminate. destruct y as [| |t n f]; try discriminate.
  rewrite units_of in Ex, Ey. apply (write_f16_mono s m e t n f h h' Hx Hy E E').
  assert (signum s * (m * 2 ^ (e + 1074)) = vx) as -> by congruence.
  assert (signum t * (n * 2 ^ (f + 1074)) = vy) as -> by congruence. exact Hle.
Qed.

Lemma f16_from_f32_special :
  (forall s, exists h, f16_from_f32 (FInf s) = Ok h /\ 0 <= h < 2 ^ 16 /\
     f16_negative h = s /\ f16_magnitude h = 0x7C00) /\
  exists h, f16_from_f32 FNan = Ok h /\ 0 <= h < 2 ^ 16 /\ f16_nan h.
Proof.
  split.
  - intros s. exists (sgn 15 s + 0x7C00). destruct s; (split; [vm_compute; reflexivity|]);
      (split; [vm_compute; split; congruence|split; reflexivity]).
  - exists 0x7FFF. split; [vm_compute; reflexivity|]. split; [lia|reflexivity].
Qed.

Lemma set16_any s m e cm : is_double (FFin s m e) ->
  let v := m * 2 ^ (e + 1074) in
  (v <= max16 -> exists y w h, nearest_float32 (signum s * v) y /\ units y = Some w /\
     nearest_float16 w h /\ f16_negative h = s /\
     set_float 16 cm (FFin s m e) = Ok (pattern_bits 16 h)) /\
  (max16 < v -> exists h, out_of_range16 cm s h /\
     set_float 16 cm (FFin s m e) = Ok (pattern_bits 16 h)).
Proof.
  intros Hx v. split; intros Hv.
  - exact (set16_finite s m e cm Hx Hv).
  - destruct (set16_large s m e cm Hx Hv) as (h & E & Hs & Hr & Hc). exists h. unfold out_of_range16. auto.
Qed.

Lemma set32_any s m e cm : is_double (FFin s m e) ->
  let v := m * 2 ^ (e + 1074) in
  exists b y, set_float 32 cm (FFin s m e) = Ok b /\ length b = 32%nat /\ get_float 32 b = Ok (Some y) /\
    (v <= max32 -> nearest_float32 (signum s * v) y /\ negative y = s /\
       (is_float32 (FFin s m e) -> units y = units (FFin s m e))) /\
    (max32 < v -> out_of_range cm s max32 y).
Proof.
  intros Hx v. destruct (Z.le_gt_cases v max32) as [Hv|Hv].
  - destruct (set32_finite s m e cm Hx Hv) as (b & y & E & Hl & Eg & Hn & Hs).
    exists b, y. split; [exact E|]. split; [exact Hl|]. split; [exact Eg|]. split; [|lia].
    intros _. split; [exact Hn|]. split; [exact Hs|]. intros Hf.
    destruct Hn as (_ & w & Ew & Hbest). specialize (Hbest _ _ Hf (units_of s m e)).
    rewrite Ew, units_of. f_equal. fold v in Hbest |- *. lia.
  - destruct (set32_large s m e cm Hx Hv) as (b & y & E & Hl & Eg & Hc).
    exists b, y. split; [exact E|]. split; [exact Hl|]. split; [exact Eg|]. split; [lia|].
    intros _. exact Hc.
Qed.

Lemma set_special cm w limit : (w = 32%nat /\ limit = max32) \/ (w = 64%nat /\ limit = max64) ->
  (exists b, set_float w cm FNan = Ok b /\ length b = w /\ get_float w b = Ok (Some FNan)) /\
  forall s, exists b y, set_float w cm (FInf s) = Ok b /\ length b = w /\
    get_float w b = Ok (Some y) /\ out_of_range cm s limit y.
Proof. intros [[-> ->]|[-> ->]]; [exact (set32_special cm)|exact (set64_special cm)]. Qed.
