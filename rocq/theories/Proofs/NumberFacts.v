(** Numbers written to fields and arrays. *)
From Coq Require Import String.
From Verif.Base Require Import Prelude Bits.
From Verif.Model Require Import BitCodec Types Codec Prim Float ObjectApi.
From Verif.Spec Require Import PrimSpec FloatSpec ObjectSpec NumberSpec.
From Verif.Proofs Require Import CodecFacts PrimFacts FloatFacts FloatFields ObjectFacts ObjectArrays ObjectUnions.
From Verif.Proofs Require FloatTop.
Open Scope list_scope.
Local Open Scope nat_scope.

Lemma int_stored k n cm z : (k = KUint \/ k = KInt) -> int_type k n -> (k = KInt -> (53 < n) -> representable k n z) ->
  exists b y, set_int k n cm z = Ok b /\ b <> [] /\ get_int k n b = Some y /\
    match cm with Saturated => nearest k n z y | Truncated => wrapped k n z y end.
Proof.
  intros K Ht Hr.
  assert (exists b y, set_int k n cm z = Ok b /\ get_int k n b = Some y /\
    match cm with Saturated => nearest k n z y | Truncated => wrapped k n z y end) as (b & y & Es & Eg & H).
  { destruct cm.
    - destruct (Nat.le_gt_cases n 53) as [L|G].
      + apply saturate_nearest; [exact Ht|destruct K; congruence|auto].
      + destruct K as [->| ->]; [apply saturate_nearest; [exact Ht|discriminate|discriminate]|].
        destruct (assign_read KInt n Saturated z Ht (Hr eq_refl G)) as (b & Es & Eg). exists b, z. split; [exact Es|]. split; [exact Eg|].
        split; [exact (Hr eq_refl G)|]. intros y _. lia.
    - apply truncate_wraps; [exact Ht|destruct K; congruence]. }
  exists b, y. split; [exact Es|]. split; [|split; [exact Eg|exact H]].
  destruct (set_get k n cm z Ht) as (b' & Es' & Hl & _). assert (b' = b) by congruence. subst b'.
  intros ->. cbn in Hl. destruct K as [->| ->]; cbn in Ht; lia.
Qed.

Lemma read16 h : (0 <= h < 2 ^ 16)%Z -> pattern_bits 16 h <> [] /\
  exists x, get_float 16 (pattern_bits 16 h) = Ok (Some x) /\ f16_means h x.
Proof.
  intros Hh. destruct (read_pattern 16 h ltac:(lia) Hh) as (E & L & NE). split; [exact NE|].
  destruct (field_back (pattern_bits 16 h) L) as (x & G & M & _). rewrite E in M. eauto.
Qed.
Lemma means_finite h x : f16_finite h -> f16_means h x -> units x = Some (f16_units h).
Proof. unfold f16_finite, f16_means. intros (_ & H) M. replace (f16_magnitude h <? 0x7C00)%Z with true in M by lia. exact M. Qed.
Lemma means_inf h x : f16_magnitude h = 0x7C00%Z -> f16_means h x -> x = FInf (f16_negative h).
Proof. unfold f16_means. intros -> M. exact M. Qed.
Lemma means_nan h x : f16_nan h -> f16_means h x -> x = FNan.
Proof.
  unfold f16_nan, f16_means. intros H M. replace (f16_magnitude h <? 0x7C00)%Z with false in M by lia.
  replace (f16_magnitude h =? 0x7C00)%Z with false in M by lia. exact M.
Qed.

Lemma not_nil {A} (l : list A) n : List.length l = S n -> l <> [].
Proof. intros L ->. discriminate. Qed.

Lemma float_set n cm x : n = 16 \/ n = 32 \/ n = 64 -> is_double x ->
  exists b y, set_float n cm x = Ok b /\ b <> [] /\ get_float n b = Ok (Some y) /\ float_stored n cm x y.
Proof.
  intros N D. destruct N as [->|[->| ->]].
  - assert (forall h s, (0 <= h < 2 ^ 16)%Z -> f16_negative h = s ->
       match cm with Saturated => f16_finite h /\ f16_units h = (signum s * max16)%Z | Truncated => f16_magnitude h = 0x7C00%Z end ->
       set_float 16 cm x = Ok (pattern_bits 16 h) ->
       exists b y, set_float 16 cm x = Ok b /\ b <> [] /\ get_float 16 b = Ok (Some y) /\ beyond cm s max16 y) as B.
    { intros h s Hh Hs Hc E. destruct (read16 h Hh) as (NE & y & G & M). exists (pattern_bits 16 h), y.
      split; [exact E|]. split; [exact NE|]. split; [exact G|]. destruct cm; cbn [beyond].
      - destruct Hc as (F & U). rewrite (means_finite h y F M), U. reflexivity.
      - rewrite (means_inf h y Hc M), Hs. reflexivity. }
    destruct x as [|s|s m e].
    + destruct (proj1 (set16_special cm)) as (h & E & Hh & Hn). destruct (read16 h Hh) as (NE & y & G & M).
      exists (pattern_bits 16 h), y. split; [exact E|]. split; [exact NE|]. split; [exact G|]. exact (means_nan h y Hn M).
    + destruct (proj2 (set16_special cm) s) as (h & E & Hs & Hh & Hc). exact (B h s Hh Hs Hc E).
    + destruct (set16_any s m e cm D) as (IN & OUT). cbv zeta in IN, OUT.
      destruct (Z.le_gt_cases (m * 2 ^ (e + 1074)) max16) as [L|G].
      * destruct (IN L) as (y' & w & h & A1 & A2 & A3 & A4 & E). destruct (read16 h (proj1 (proj1 A3))) as (NE & y & G & M).
        exists (pattern_bits 16 h), y. split; [exact E|]. split; [exact NE|]. split; [exact G|]. cbn [float_stored limit]. split; [|lia].
        intros _. exists y', w, h. split; [exact A1|]. split; [exact A2|]. split; [exact A3|]. exact (means_finite h y (proj1 A3) M).
      * destruct (OUT G) as (h & (Hh & Hs & Hc) & E). destruct (B h s Hh Hs Hc E) as (b & y & A1 & A2 & A3 & A4).
        exists b, y. split; [exact A1|]. split; [exact A2|]. split; [exact A3|]. cbn [float_stored limit]. split; [lia|]. intros _. exact A4.
  - destruct (set_special cm 32 max32 (or_introl (conj eq_refl eq_refl))) as ((bn & En & Ln & Gn) & I).
    destruct x as [|s|s m e].
    + exists bn, FNan. split; [exact En|]. split; [exact (not_nil _ _ Ln)|]. split; [exact Gn|reflexivity].
    + destruct (I s) as (b & y & E & L & G & O). exists b, y. split; [exact E|]. split; [exact (not_nil _ _ L)|]. split; [exact G|].
      cbn [float_stored limit]. unfold beyond, out_of_range in *. destruct cm; [exact (proj1 O)|exact O].
    + destruct (set32_any s m e cm D) as (b & y & E & L & G & IN & OUT). exists b, y. split; [exact E|]. split; [exact (not_nil _ _ L)|].
      split; [exact G|]. cbn [float_stored limit]. split; [intros H; exact (proj1 (IN H))|]. intros H. specialize (OUT H).
      unfold beyond, out_of_range in *. destruct cm; [exact (proj1 OUT)|exact OUT].
  - destruct (set_special cm 64 max64 (or_intror (conj eq_refl eq_refl))) as ((bn & En & Ln & Gn) & I).
    destruct x as [|s|s m e].
    + exists bn, FNan. split; [exact En|]. split; [exact (not_nil _ _ Ln)|]. split; [exact Gn|reflexivity].
    + destruct (I s) as (b & y & E & L & G & O). exists b, y. split; [exact E|]. split; [exact (not_nil _ _ L)|]. split; [exact G|].
      cbn [float_stored limit]. unfold beyond, out_of_range in *. destruct cm; [exact (proj1 O)|exact O].
    + destruct (set64_finite s m e cm D) as (b & y & E & L & G & U & _). exists b, y. split; [exact E|]. split; [exact (not_nil _ _ L)|].
      split; [exact G|]. cbn [float_stored limit]. split; [intros _; exact U|]. intros H. exfalso. destruct D as (Hm & He).
      assert (m * 2 ^ (e + 1074) <= max64)%Z; [|lia]. unfold max64.
      assert (2 ^ (e + 1074) <= 2 ^ (971 + 1074))%Z by (apply Z.pow_le_mono_r; lia).
      pose proof (pow_pos (e + 1074) ltac:(lia)). apply Z.mul_le_mono_nonneg; lia.
Qed.

Lemma number_set k n cm v : number_for k n v ->
  exists b w, (forall h, prim_set h k n cm v = Ok b) /\ b <> [] /\ prim_get k n b = Ok w /\ number_stored k n cm v w.
Proof.
  intros H. assert (forall P Q R : Prop, (P -> R) -> (Q -> R) -> P \/ Q -> R) as OR by tauto. destruct k.
  - destruct H as (-> & H).
    assert (exists t, (forall h, truth h v = t) /\ (t = true <-> nonzero v)) as (t & T & TN).
    { destruct H as [(z & ->)|(x & ->)].
      - exists (negb (z =? 0)%Z). split; [reflexivity|]. cbn [nonzero]. destruct (Z.eqb_spec z 0); cbn; intuition congruence.
      - destruct x as [|s|s m e]; [exists true; split; [reflexivity|cbn; tauto]..|]. exists (negb (m =? 0)%Z).
        split; [reflexivity|]. cbn [nonzero]. destruct (Z.eqb_spec m 0); cbn; intuition congruence. }
    exists [t], (PInt (if t then 1 else 0)). split; [|split; [discriminate|split]].
    + intros h. unfold prim_set. rewrite T. destruct H as [(z & ->)|(x & ->)]; reflexivity.
    + destruct t; reflexivity.
    + destruct t; cbn [number_stored]; intuition congruence.
  - destruct H as (Ht & z & -> & Hr). destruct (int_stored KUint n cm z (or_introl eq_refl) Ht Hr) as (b & y & Es & NE & Eg & S).
    exists b, (PInt y). split; [intros h; exact Es|]. split; [exact NE|]. split; [unfold prim_get; rewrite Eg; reflexivity|].
    exists z, y. auto.
  - destruct H as (Ht & z & -> & Hr). destruct (int_stored KInt n cm z (or_intror eq_refl) Ht Hr) as (b & y & Es & NE & Eg & S).
    exists b, (PInt y). split; [intros h; exact Es|]. split; [exact NE|]. split; [unfold prim_get; rewrite Eg; reflexivity|].
    exists z, y. auto.
  - destruct H as (N & H). assert (exists x, given_float v x /\ is_double x /\ (forall h, prim_set h KFloat n cm v = set_float n cm x)) as (x & GV & D & E).
    { destruct H as [(z & -> & B)|(x & -> & D)].
      - eexists. split; [reflexivity|]. split; [|reflexivity]. cbn. lia.
      - exists x. split; [reflexivity|]. split; [exact D|reflexivity]. }
    destruct (float_set n cm x N D) as (b & y & Es & NE & Eg & S). exists b, (PFloat y).
    split; [intros h; rewrite E; exact Es|]. split; [exact NE|]. split; [unfold prim_get; rewrite Eg; reflexivity|].
    exists x, y. auto.
Qed.

(** ** Fields *)

Lemma set_field_with h a nm u fs cs act f i k n cm v slots d extra b w :
  nth_error h a = Some (CComp nm u fs cs d act extra) -> nth_error h d = Some (CDict slots) ->
  i < length slots -> (u = true -> act = None \/ act = Some f) ->
  find_field fs f = Some (i, APrim k n cm) -> ~ In f (map fst cs) ->
  (forall h, prim_set h k n cm v = Ok b) -> prim_get k n b = Ok w ->
  exists h', step h (OSet a f v) = (Ok PNone, h') /\ step h' (OGet a f) = (Ok w, h') /\
    (u = false -> forall g, g <> f -> fst (step h' (OGet a g)) = fst (step h (OGet a g))) /\
    (forall c, c <> a -> c <> d -> nth_error h' c = nth_error h c).
Proof.
  intros E Ed Hi Ha Ef Hc Ep Eg.
  assert (union_blocks u act f = false) as Eb.
  { destruct u; [|reflexivity]. destruct (Ha eq_refl) as [->| ->]; cbn; [reflexivity|].
    rewrite String.eqb_refl. reflexivity. }
  set (h1 := if u then put h a (CComp nm u fs cs d (Some f) extra) else h).
  assert (a <> d) as Had by congruence.
  assert (nth_error h1 d = Some (CDict slots)) as Ed1.
  { unfold h1. destruct u; [rewrite put_other by exact Had|]; exact Ed. }
  assert (exists act', nth_error h1 a = Some (CComp nm u fs cs d act' extra) /\
                       (u = true -> act' = Some f)) as (act' & E1 & Ha1).
  { unfold h1. destruct u; [exists (Some f)|exists act].
    - split; [apply (put_same _ _ _ _ E)|reflexivity].
    - split; [exact E|discriminate]. }
  set (h2 := put h1 d (CDict (list_set slots i (SPrim b)))).
  assert (nth_error h2 a = Some (CComp nm u fs cs d act' extra)) as E2.
  { unfold h2. rewrite put_other by congruence. exact E1. }
  assert (nth_error h2 d = Some (CDict (list_set slots i (SPrim b)))) as Ed2
    by apply (put_same _ _ _ _ Ed1).
  assert (nth_error (list_set slots i (SPrim b)) i = Some (SPrim b)) as Ei
    by (apply nth_error_list_set; exact Hi).
  exists h2. split; [|split; [|split]].
  - cbn [step]. unfold setattr. rewrite E, (dget_none _ _ Hc), Ef, Eb. fold h1. cbv zeta.
    rewrite Ed1, Ep. reflexivity.
  - cbn [step]. unfold getattr. rewrite E2, (dget_none _ _ Hc), Ef.
    assert (union_blocks u act' f = false) as Eb2.
    { destruct u; [|reflexivity]. rewrite (Ha1 eq_refl). cbn. rewrite String.eqb_refl. reflexivity. }
    rewrite Eb2.
    assert ((if u then put h2 a (CComp nm u fs cs d (Some f) extra) else h2) = h2) as Eh.
    { destruct u; [|reflexivity]. rewrite (Ha1 eq_refl) in E2. apply put_id. exact E2. }
    rewrite Eh. cbv zeta. rewrite Ed2, Ei, Eg. reflexivity.
  - intros -> g Hg. cbn [step]. unfold getattr. rewrite E, E2. destruct (dget String.eqb cs g); [reflexivity|].
    destruct (find_field fs g) as [[j ft]|] eqn:Ej; [|reflexivity]. cbn [union_blocks andb]. rewrite Ed, Ed2.
    rewrite list_set_other; [destruct (nth_error slots j) as [[| |]|]; reflexivity|].
    intros ->. pose proof (find_field_in _ _ _ _ Ef). pose proof (find_field_in _ _ _ _ Ej). congruence.
  - intros c C1 C2. unfold h2. rewrite put_other by congruence. unfold h1. destruct u; [rewrite put_other by congruence|]; reflexivity.
Qed.

Lemma set_number_field h a nm u fs cs act f i k n cm v slots d extra :
  nth_error h a = Some (CComp nm u fs cs d act extra) -> nth_error h d = Some (CDict slots) ->
  i < length slots -> (u = true -> act = None \/ act = Some f) ->
  find_field fs f = Some (i, APrim k n cm) -> ~ In f (map fst cs) -> number_for k n v ->
  exists h' w, step h (OSet a f v) = (Ok PNone, h') /\ step h' (OGet a f) = (Ok w, h') /\ number_stored k n cm v w /\
    (u = false -> forall g, g <> f -> fst (step h' (OGet a g)) = fst (step h (OGet a g))) /\
    (forall c, c <> a -> c <> d -> nth_error h' c = nth_error h c).
Proof.
  intros E Ed Hi Ha Ef Hc Hv. destruct (number_set k n cm v Hv) as (b & w & Ep & NE & Eg & ST).
  destruct (set_field_with h a nm u fs cs act f i k n cm v slots d extra b w E Ed Hi Ha Ef Hc Ep Eg) as (h' & A & B & C & D).
  exists h', w. auto.
Qed.

(** Floats given to integer types. *)
Lemma range_ok k n : (k = KUint \/ k = KInt) -> int_type k n -> (k = KInt -> n <= 53) ->
  value_range k n = Ok (range_low k n, range_high k n) /\ (range_low k n <= range_high k n)%Z /\ (0 <= range_high k n)%Z.
Proof.
  intros K T L. assert (0 < 2 ^ (Z.of_nat n - 1))%Z by (apply Z.pow_pos_nonneg; destruct K; subst; cbn in T; lia).
  destruct K as [->| ->]; cbn [int_type] in T; cbn [range_low range_high value_range].
  - rewrite unsigned_range_ok by exact T. assert (0 < 2 ^ Z.of_nat n)%Z by (apply Z.pow_pos_nonneg; lia). split; [reflexivity|lia].
  - rewrite signed_range_small by (specialize (L eq_refl); lia). split; [reflexivity|]. lia.
Qed.
Lemma flt_int_r x z : is_double x -> flt x (FFin (z <? 0)%Z (Z.abs z) 0) = true <-> less x z.
Proof.
  intros D. unfold less. destruct x as [|s|s m e]; cbn [units].
  - cbn. split; discriminate.
  - cbn. destruct s; split; congruence.
  - cbn [is_double] in D. rewrite (FloatTop.flt_units s m e _ _ 0 (-1074)%Z) by lia.
    replace (e - -1074)%Z with (e + 1074)%Z by lia. change (0 - -1074)%Z with 1074%Z.
    replace (signed_mantissa (z <? 0)%Z (Z.abs z)) with z by (unfold signed_mantissa; destruct (z <? 0)%Z eqn:?; lia).
    replace (signed_mantissa s m * 2 ^ (e + 1074))%Z with (signum s * (m * 2 ^ (e + 1074)))%Z by (unfold signed_mantissa, signum; destruct s; lia).
    lia.
Qed.
Lemma flt_int_l x z : is_double x -> flt (FFin (z <? 0)%Z (Z.abs z) 0) x = true <-> greater x z.
Proof.
  intros D. unfold greater. destruct x as [|s|s m e]; cbn [units].
  - cbn. split; discriminate.
  - cbn. destruct s; split; cbn; congruence.
  - cbn [is_double] in D. rewrite (FloatTop.flt_units _ _ _ s m e (-1074)%Z) by lia.
    replace (e - -1074)%Z with (e + 1074)%Z by lia. change (0 - -1074)%Z with 1074%Z.
    replace (signed_mantissa (z <? 0)%Z (Z.abs z)) with z by (unfold signed_mantissa; destruct (z <? 0)%Z eqn:?; lia).
    replace (signed_mantissa s m * 2 ^ (e + 1074))%Z with (signum s * (m * 2 ^ (e + 1074)))%Z by (unfold signed_mantissa, signum; destruct s; lia).
    lia.
Qed.
Lemma int_of_float k n x : (k = KUint \/ k = KInt) -> int_type k n -> (k = KInt -> n <= 53) -> is_double x ->
  (greater x (range_high k n) -> exists b, set_int_of_float k n Saturated x = Ok b /\ get_int k n b = Some (range_high k n)) /\
  (less x (range_low k n) -> exists b, set_int_of_float k n Saturated x = Ok b /\ get_int k n b = Some (range_low k n)) /\
  (~ greater x (range_high k n) -> ~ less x (range_low k n) -> set_int_of_float k n Saturated x = Err ValueError).
Proof.
  intros K T L D. destruct (range_ok k n K T L) as (R & LE & P). unfold set_int_of_float. rewrite R. cbn [bind].
  pose proof (flt_int_l x (range_high k n) D) as G. pose proof (flt_int_r x (range_low k n) D) as LS.
  assert (forall z, (range_low k n <= z <= range_high k n)%Z -> representable k n z) as RP.
  { intros z B. unfold representable. destruct K as [->| ->]; cbn [range_low range_high int_lo int_hi] in *; exact B. }
  split; [|split].
  - intros H. rewrite (proj2 G H).
    destruct (assign_read k n Saturated (range_high k n) T (RP (range_high k n) ltac:(lia))) as (b & A & B). eauto.
  - intros H. destruct (flt (FFin (range_high k n <? 0)%Z _ 0) x) eqn:F.
    + exfalso. clear F. pose proof (proj1 G eq_refl) as F. clear - H F LE. unfold greater, less in *. destruct (units x); [|congruence].
      assert (range_low k n * 2 ^ 1074 <= range_high k n * 2 ^ 1074)%Z by (apply Z.mul_le_mono_nonneg_r; [apply Z.pow_nonneg; lia|exact LE]). lia.
    + rewrite (proj2 LS H). destruct (assign_read k n Saturated (range_low k n) T (RP (range_low k n) ltac:(lia))) as (b & A & B). eauto.
  - intros NG NL. destruct (flt (FFin (range_high k n <? 0)%Z _ 0) x); [exfalso; apply NG, (proj1 G); reflexivity|].
    destruct (flt x _); [exfalso; apply NL, (proj1 LS); reflexivity|reflexivity].
Qed.

Lemma float_beyond h a nm u fs cs act f i k n x : object_at h a (AComp nm u fs cs) act -> open_field h a f ->
  (exists s, field_slot h a f = Some s) -> find_field fs f = Some (i, APrim k n Saturated) -> ~ In f (map fst cs) ->
  (k = KUint \/ k = KInt) -> int_type k n -> (k = KInt -> n <= 53) -> is_double x ->
  (greater x (range_high k n) -> exists h', step h (OSet a f (PFloat x)) = (Ok PNone, h') /\ step h' (OGet a f) = (Ok (PInt (range_high k n)), h')) /\
  (less x (range_low k n) -> exists h', step h (OSet a f (PFloat x)) = (Ok PNone, h') /\ step h' (OGet a f) = (Ok (PInt (range_low k n)), h')).
Proof.
  intros (d & extra & E) Ho (s & Hs) Ef Hc K T L D. unfold field_slot in Hs. rewrite E, Ef in Hs.
  destruct (nth_error h d) as [[|slots|]|] eqn:Ed; try discriminate.
  destruct (int_of_float k n x K T L D) as (G & LS & _).
  assert (forall z b, set_int_of_float k n Saturated x = Ok b -> get_int k n b = Some z ->
    exists h', step h (OSet a f (PFloat x)) = (Ok PNone, h') /\ step h' (OGet a f) = (Ok (PInt z), h')) as X.
  { intros z b A B. destruct (set_field_with h a nm u fs cs act f i k n Saturated (PFloat x) slots d extra b (PInt z)) as (h' & C & C' & _); try assumption.
    - apply nth_error_Some. congruence.
    - intros Hu. exact (Ho _ _ _ _ _ _ _ E Hu).
    - intros h0. unfold prim_set. destruct K as [->| ->]; exact A.
    - unfold prim_get. destruct K as [->| ->]; rewrite B; reflexivity.
    - eauto. }
  split; intros H; [destruct (G H) as (b & A & B)|destruct (LS H) as (b & A & B)]; exact (X _ b A B).
Qed.
Lemma float_refused h a nm fs cs act f i k n cm x : object_at h a (AComp nm false fs cs) act ->
  (exists s, field_slot h a f = Some s) -> find_field fs f = Some (i, APrim k n cm) -> ~ In f (map fst cs) ->
  (k = KUint \/ k = KInt) -> int_type k n -> (k = KInt -> n <= 53) -> is_double x ->
  ~ greater x (range_high k n) -> ~ less x (range_low k n) ->
  step h (OSet a f (PFloat x)) = (Err (match cm with Saturated => ValueError | Truncated => TypeError end), h).
Proof.
  intros (d & extra & E) (s & Hs) Ef Hc K T L D NG NL. unfold field_slot in Hs. rewrite E, Ef in Hs.
  destruct (nth_error h d) as [[|slots|]|] eqn:Ed; try discriminate.
  destruct (int_of_float k n x K T L D) as (_ & _ & W). specialize (W NG NL).
  assert (prim_set h k n cm (PFloat x) = Err (match cm with Saturated => ValueError | Truncated => TypeError end)) as P.
  { unfold prim_set. destruct K as [->| ->]; (destruct cm; [exact W|reflexivity]). }
  cbn [step]. unfold setattr. rewrite E, (dget_none _ _ Hc), Ef. cbn [union_blocks andb]. rewrite Ed, P. reflexivity.
Qed.

(** ** Arrays *)

Lemma number_holds k n cm v : number_for k n v ->
  exists s w, (forall h, stored h (APrim k n cm) v s) /\ holds (APrim k n cm) s w /\ number_stored k n cm v w.
Proof.
  intros H. destruct (number_set k n cm v H) as (b & w & A & NE & B & C). exists (SPrim b), w.
  split; [intros h; exists b; split; [apply A|reflexivity]|]. split; [|exact C].
  unfold holds, item_value. destruct b as [|x b]; [congruence|exact B].
Qed.

Lemma insert_number h a k n cm mx vs i v :
  array_at h a (APrim k n cm) mx -> reads_as h a vs -> length vs < mx -> (i < Z.of_nat mx)%Z -> number_for k n v ->
  exists h' w, step h (OInsert a i v) = (Ok PNone, h') /\ array_at h' a (APrim k n cm) mx /\ number_stored k n cm v w /\
    reads_as h' a (py_insert i w vs) /\ forall b, b <> a -> nth_error h' b = nth_error h b.
Proof.
  intros (dyn & items & E) Hr Hl Hi Hk. apply (reads_items _ _ _ _ _ _ _ E) in Hr.
  pose proof (Forall2_len _ _ _ Hr) as HL.
  destruct (number_holds k n cm v Hk) as (s & w & Hs & Hh & ST).
  eexists. exists w. split; [cbn [step]; apply (insert_at h a dyn _ mx items i v s E); [lia|exact Hi|apply Hs]|].
  set (items' := list_insert _ _ _).
  assert (nth_error (put h a (CArr dyn (APrim k n cm) mx items')) a = Some (CArr dyn (APrim k n cm) mx items')) as E'
    by apply (put_same _ _ _ _ E).
  split; [exists dyn, items'; exact E'|]. split; [exact ST|]. split.
  - apply (reads_items _ _ _ _ _ _ _ E'). unfold items', list_insert, py_insert. cbv zeta.
    rewrite HL. replace (insert_index (length vs) i) with
      (Z.to_nat (if (i <? 0)%Z then Z.max 0 (i + Z.of_nat (length vs))
                 else Z.min i (Z.of_nat (length vs)))).
    2:{ unfold insert_index. destruct (i <? 0)%Z eqn:?; lia. }
    apply Forall2_app; [apply Forall2_firstn; exact Hr|].
    cbn [app]. constructor; [exact Hh|]. apply Forall2_skipn. exact Hr.
  - intros b Hb. apply put_other. congruence.
Qed.

Lemma append_number h a k n cm mx vs v :
  array_at h a (APrim k n cm) mx -> reads_as h a vs -> length vs < mx -> number_for k n v ->
  exists h' w, step h (OAppend a v) = (Ok PNone, h') /\ array_at h' a (APrim k n cm) mx /\ number_stored k n cm v w /\
    reads_as h' a (vs ++ [w]) /\ forall b, b <> a -> nth_error h' b = nth_error h b.
Proof.
  intros HA Hr Hl Hk. cbn [step]. rewrite (append_is_insert _ _ _ _ _ _ HA Hr).
  destruct (insert_number _ _ _ _ _ _ _ (Z.of_nat (length vs)) _ HA Hr Hl ltac:(lia) Hk) as (h' & w & A & B & C & D & E).
  exists h', w. rewrite py_insert_end in D. auto.
Qed.

Lemma replace_number h a k n cm mx vs i v :
  array_at h a (APrim k n cm) mx -> reads_as h a vs -> length vs <= mx -> in_bounds i vs -> number_for k n v ->
  exists h' w, step h (OSetItem a i v) = (Ok PNone, h') /\ array_at h' a (APrim k n cm) mx /\ number_stored k n cm v w /\
    reads_as h' a (py_replace i w vs) /\ forall b, b <> a -> nth_error h' b = nth_error h b.
Proof.
  intros (dyn & items & E) Hr Hl Hi Hk. apply (reads_items _ _ _ _ _ _ _ E) in Hr.
  pose proof (Forall2_len _ _ _ Hr) as HL. unfold in_bounds in Hi.
  destruct (number_holds k n cm v Hk) as (s & w & Hs & Hh & ST).
  destruct (norm_index_mod (length items) i ltac:(lia)) as (En & Hlt).
  set (j := Z.to_nat (i mod Z.of_nat (length items))) in *.
  set (items' := list_set items j s).
  assert (step h (OSetItem a i v) = (Ok PNone, put h a (CArr dyn (APrim k n cm) mx items'))) as ES.
  { cbn [step]. unfold arr_setitem. rewrite E.
    replace (Z.of_nat mx <=? i)%Z with false by lia. rewrite En.
    destruct (Hs h) as (b & -> & Eb). unfold items'. rewrite Eb. reflexivity. }
  eexists. exists w. split; [exact ES|].
  assert (nth_error (put h a (CArr dyn (APrim k n cm) mx items')) a = Some (CArr dyn (APrim k n cm) mx items')) as E'
    by apply (put_same _ _ _ _ E).
  split; [exists dyn, items'; exact E'|]. split; [exact ST|]. split.
  - apply (reads_items _ _ _ _ _ _ _ E'). unfold items', py_replace. cbv zeta.
    rewrite list_set_split by exact Hlt. subst j. rewrite HL.
    apply Forall2_app; [apply Forall2_firstn; exact Hr|].
    cbn [app]. constructor; [exact Hh|]. apply Forall2_skipn. exact Hr.
  - intros b Hb. apply put_other. congruence.
Qed.

Lemma append_numbers k n cm vs : forall h a mx vs0, array_at h a (APrim k n cm) mx -> reads_as h a vs0 ->
  Forall (number_for k n) vs ->
  exists h' ws, Forall2 (number_stored k n cm) vs ws /\
    array_at h' a (APrim k n cm) mx /\ (forall b, b <> a -> nth_error h' b = nth_error h b) /\
    (if length vs0 + length vs <=? mx
     then append_all h a vs = (Ok PNone, h') /\ reads_as h' a (vs0 ++ ws)
     else length vs0 <= mx ->
          append_all h a vs = (Err IndexError, h') /\ reads_as h' a (firstn mx (vs0 ++ ws))).
Proof.
  induction vs as [|v vs IH]; intros h a mx vs0 HA Hr Hk.
  - exists h, []. split; [constructor|]. split; [exact HA|]. split; [reflexivity|]. cbn [length append_all].
    destruct (length vs0 + 0 <=? mx) eqn:E.
    + rewrite app_nil_r. auto.
    + intros H. lia.
  - apply Forall_cons_iff in Hk as (Hv & Hk).
    destruct (Nat.lt_ge_cases (length vs0) mx) as [Hlt|Hge].
    + destruct (append_number h a k n cm mx vs0 v HA Hr Hlt Hv) as (h1 & w & E1 & HA1 & ST & Hr1 & F1).
      cbn [step] in E1.
      destruct (IH h1 a mx (vs0 ++ [w]) HA1 Hr1 Hk) as (h2 & ws & FS & HA2 & F2 & H2).
      exists h2, (w :: ws). split; [constructor; assumption|].
      split; [exact HA2|]. split; [intros b Hb; rewrite F2, F1 by exact Hb; reflexivity|].
      cbn [append_all length]. rewrite E1.
      rewrite app_length in H2. cbn [length] in H2.
      replace (length vs0 + S (length vs)) with (length vs0 + 1 + length vs) by lia.
      rewrite <- app_assoc in H2. cbn [app] in H2.
      destruct (length vs0 + 1 + length vs <=? mx); [exact H2|]. intros _. apply H2. lia.
    + assert (exists ws, Forall2 (number_stored k n cm) (v :: vs) ws) as (ws & FS).
      { clear - Hv Hk. assert (Forall (number_for k n) (v :: vs)) as F by (constructor; assumption). clear Hv Hk.
        induction F as [|x l H F (ws & IH)]; [exists []; constructor|].
        destruct (number_set k n cm x H) as (_ & w & _ & _ & _ & ST). exists (w :: ws). constructor; assumption. }
      exists h, ws. split; [exact FS|]. split; [exact HA|]. split; [reflexivity|].
      replace (length vs0 + length (v :: vs) <=? mx) with false by (cbn [length]; lia).
      intros Hle. assert (length vs0 = mx) as Hm by lia.
      cbn [append_all]. pose proof (full_refuses h a _ mx vs0 0%Z v HA Hr Hm) as (_ & Ef).
      cbn [step] in Ef. rewrite Ef. split; [reflexivity|].
      rewrite <- Hm, firstn_app, Nat.sub_diag, firstn_O, app_nil_r, firstn_all. exact Hr.
Qed.

Lemma assign_numbers h a nm b k n cm mx v vs : field_array h a nm b -> open_field h a nm ->
  array_at h b (APrim k n cm) mx -> yields h v vs -> v <> PRef b -> Forall (number_for k n) vs ->
  exists h' ws, step h (OSet a nm v) = ((if length vs <=? mx then Ok PNone else Err AttributeError), h') /\
    Forall2 (number_stored k n cm) vs ws /\
    field_array h' a nm b /\ array_at h' b (APrim k n cm) mx /\ reads_as h' b (firstn mx ws).
Proof.
  intros Hf Ho HA Hy Hne Hk. cbn [step].
  destruct (setattr_array h a nm b v Hf Ho) as (h1 & E1 & Fa & Fd & Fo & Fc).
  assert (array_at h1 b (APrim k n cm) mx) as HA1.
  { destruct HA as (dyn & items & E). exists dyn, items. rewrite (Fa _ _ _ _ _ E). exact E. }
  assert (yields h1 v vs) as Hy1.
  { apply (yields_same h); [|exact Hy]. intros c ->.
    destruct Hy as [Hy|(c' & et' & mx' & Hc & (dyn' & items' & E') & _)]; [discriminate|].
    assert (c' = c) by congruence. subst. apply (Fa _ _ _ _ _ E'). }
  destruct (clear_effect h1 b _ mx HA1) as (h2 & E2 & _ & HA2 & Hr2 & F2).
  assert (yields h2 v vs) as Hy2.
  { apply (yields_same h1); [|exact Hy1]. intros c ->. apply F2. congruence. }
  destruct (append_numbers k n cm vs h2 b mx [] HA2 Hr2 Hk) as (h3 & ws & FS & HA3 & F3 & H3).
  cbn [length app] in H3. rewrite Nat.add_0_l in H3.
  exists h3, ws. split; [|split; [exact FS|split; [|split; [exact HA3|]]]].
  - rewrite E1. unfold assign_array. rewrite E2.
    assert (match v with
            | PStr s => arr_encode h2 b s
            | _ => match iterate h2 v with Ok vs => append_all h2 b vs | Err e => (Err e, h2) end
            end = append_all h2 b vs) as ->.
    { rewrite (yields_iterate _ _ _ Hy2). destruct Hy2 as [->|(c & ? & ? & -> & _)]; reflexivity. }
    destruct (length vs <=? mx); [destruct H3 as (-> & _)|destruct (H3 ltac:(lia)) as (-> & _)]; reflexivity.
  - apply (field_array_len h h1 h3); auto.
    + intros c Hc. rewrite F3, F2 by exact Hc. reflexivity.
    + destruct HA1 as (dyn & items & E). exists dyn, (APrim k n cm), mx, items. exact E.
  - pose proof (Forall2_len _ _ _ FS) as L. destruct (length vs <=? mx) eqn:El.
    + rewrite firstn_all2 by lia. exact (proj2 H3).
    + exact (proj2 (H3 ltac:(lia))).
Qed.
