(** Numbers given for float fields. *)
From Coq Require Import String.
From Verif.Base Require Import Prelude Bits.
From Verif.Model Require Import BitCodec Types Codec Prim Float Utf8 ObjectApi.
From Verif.Spec Require Import PrimSpec CodecSpec ObjectSpec FloatSpec SendableSpec.
From Verif.Proofs Require Import CodecFacts FloatFields ObjectFacts ObjectTop ObjectUnions.
Open Scope list_scope.

Lemma set_prim_field h a nm u fs cs act f i k n cm v slots d extra b r :
  nth_error h a = Some (CComp nm u fs cs d act extra) -> nth_error h d = Some (CDict slots) ->
  i < List.length slots -> (u = true -> act = None \/ act = Some f) ->
  find_field fs f = Some (i, APrim k n cm) -> ~ In f (map fst cs) ->
  (forall h0, prim_set h0 k n cm v = Ok b) -> prim_get k n b = Ok r ->
  exists h', step h (OSet a f v) = (Ok PNone, h') /\ step h' (OGet a f) = (Ok r, h').
Proof.
  intros E Ed Hi Ha Ef Hc Ep Eg.
  assert (union_blocks u act f = false) as Eb.
  { destruct u; [|reflexivity]. destruct (Ha eq_refl) as [->| ->]; cbn; [reflexivity|].
    rewrite String.eqb_refl. reflexivity. }
  set (h1 := if u then put h a (CComp nm u fs cs d (Some f) extra) else h).
  assert (a <> d) as Had by congruence.
  assert (nth_error h1 d = Some (CDict slots)) as Ed1.
  { unfold h1. destruct u; [rewrite put_other by exact Had|]; exact Ed. }
  assert (exists act', nth_error h1 a = Some (CComp nm u fs cs d act' extra) /\
                       (u = true -> act' = Some f)) as (act' & E1 & Ha1).
  { unfold h1. destruct u; [exists (Some f)|exists act].
    - split; [apply (put_same _ _ _ _ E)|reflexivity].
    - split; [exact E|discriminate]. }
  set (h2 := put h1 d (CDict (list_set slots i (SPrim b)))).
  assert (nth_error h2 a = Some (CComp nm u fs cs d act' extra)) as E2.
  { unfold h2. rewrite put_other by congruence. exact E1. }
  assert (nth_error h2 d = Some (CDict (list_set slots i (SPrim b)))) as Ed2
    by apply (put_same _ _ _ _ Ed1).
  assert (nth_error (list_set slots i (SPrim b)) i = Some (SPrim b)) as Ei
    by (apply nth_error_list_set; exact Hi).
  exists h2. split.
  - cbn [step]. unfold setattr. rewrite E, (dget_none _ _ Hc), Ef, Eb. fold h1. cbv zeta.
    rewrite Ed1, Ep. reflexivity.
  - cbn [step]. unfold getattr. rewrite E2, (dget_none _ _ Hc), Ef.
    assert (union_blocks u act' f = false) as Eb2.
    { destruct u; [|reflexivity]. rewrite (Ha1 eq_refl). cbn. rewrite String.eqb_refl. reflexivity. }
    rewrite Eb2.
    assert ((if u then put h2 a (CComp nm u fs cs d (Some f) extra) else h2) = h2) as Eh.
    { destruct u; [|reflexivity]. rewrite (Ha1 eq_refl) in E2. apply put_id. exact E2. }
    rewrite Eh. cbv zeta. rewrite Ed2, Ei, Eg. reflexivity.
Qed.

(** The argument as a float. *)
Lemma stands_float v q : stands_for v q -> exists s m e, is_double (FFin s m e) /\
  (signum s * (m * 2 ^ (e + 1074)))%Z = q /\
  (forall h n cm, prim_set h KFloat n cm v = set_float n cm (FFin s m e)).
Proof.
  destruct v as [|z|x| | | |]; cbn [stands_for]; try contradiction.
  - intros (A & ->). exists (z <? 0)%Z, (Z.abs z), 0%Z. split; [cbn -[Z.pow]; lia|]. split; [|reflexivity].
    replace (0 + 1074)%Z with 1074%Z by reflexivity. unfold signum. destruct (Z.ltb_spec z 0); lia.
  - intros (A & B). destruct x as [| |s m e]; try discriminate. exists s, m, e. split; [exact A|]. split; [|reflexivity].
    cbn [units] in B. congruence.
Qed.

Local Open Scope Z_scope.
Lemma signed_abs s v : 0 <= v -> Z.abs (signum s * v) = v.
Proof. unfold signum. destruct s; lia. Qed.
Lemma signed_neg s v : 0 < v -> (signum s * v <? 0) = s.
Proof. unfold signum. destruct s; intros; [apply Z.ltb_lt|apply Z.ltb_ge]; lia. Qed.

Lemma float_stored n cm v q : (n = 16 \/ n = 32 \/ n = 64)%nat -> stands_for v q ->
  exists b y, (forall h, prim_set h KFloat n cm v = Ok b) /\ prim_get KFloat n b = Ok (PFloat y) /\
    reads_near n cm q y.
Proof.
  intros N H. destruct (stands_float v q H) as (s & m & e & D & Q & P).
  pose proof D as (Dm & De). assert (0 < 2 ^ (e + 1074)) as PP by (apply Z.pow_pos_nonneg; lia).
  assert (0 <= m * 2 ^ (e + 1074)) as NN by (apply Z.mul_nonneg_nonneg; lia).
  set (x := m * 2 ^ (e + 1074)) in *.
  destruct N as [->|[->| ->]].
  - destruct (set16_any s m e cm D) as (A & B). fold x in A, B.
    destruct (Z.le_gt_cases x max16) as [L|L].
    + destruct (A L) as (y32 & w & p & A1 & A2 & A3 & A4 & A5).
      assert (length (pattern_bits 16 p) = 16%nat) as Hl
        by (apply bits_of_N_length).
      destruct (get16 _ Hl) as (y & G & Mn).
      exists (pattern_bits 16 p), y. split; [intros h; rewrite P; exact A5|].
      split; [unfold prim_get; rewrite G; reflexivity|].
      split; [intros; lia|]. split; [intros; lia|]. split; [intros; lia|]. intros _ _.
      exists y32, w, p. rewrite <- Q. split; [exact A1|]. split; [exact A2|]. split; [exact A3|].
      destruct A3 as ((R & F) & _).
      destruct (read_pattern 16 p ltac:(lia) R) as (RP & _). rewrite RP in Mn.
      unfold f16_means in Mn. replace (f16_magnitude p <? 0x7C00) with true in Mn by (symmetry; apply Z.ltb_lt; exact F).
      exact Mn.
    + destruct (B L) as (p & (R & _) & B2).
      assert (length (pattern_bits 16 p) = 16%nat) as Hl by (apply bits_of_N_length).
      destruct (get16 _ Hl) as (y & G & Mn).
      exists (pattern_bits 16 p), y. split; [intros h; rewrite P; exact B2|].
      split; [unfold prim_get; rewrite G; reflexivity|].
      split; [intros; lia|]. split; [intros; lia|]. split; [intros; lia|]. intros _ W.
      rewrite <- Q, signed_abs in W by exact NN. lia.
  - destruct (set32_any s m e cm D) as (b & y & A & _ & G & B & C). fold x in B, C. exists b, y.
    split; [intros h; rewrite P; exact A|]. split; [unfold prim_get; rewrite G; reflexivity|].
    split; [intros; lia|]. rewrite <- Q, signed_abs by exact NN.
    split; [intros _ L; exact (proj1 (B L))|]. split; [|intros; lia]. intros _ L.
    rewrite signed_neg; [exact (C L)|]. assert (0 < max32) by reflexivity. lia.
  - destruct (set64_finite s m e cm D) as (b & y & A & _ & G & U & _). exists b, y.
    split; [intros h; rewrite P; exact A|]. split; [unfold prim_get; rewrite G; reflexivity|].
    split; [intros _; rewrite U, <- Q; reflexivity|]. split; [intros; lia|]. split; intros; lia.
Qed.

Lemma float_field h a nm u fs cs act f i n cm v q :
  object_at h a (AComp nm u fs cs) act -> open_field h a f -> (exists s, field_slot h a f = Some s) ->
  find_field fs f = Some (i, APrim KFloat n cm) -> ~ In f (map fst cs) ->
  (n = 16 \/ n = 32 \/ n = 64)%nat -> stands_for v q ->
  exists h' y, step h (OSet a f v) = (Ok PNone, h') /\ step h' (OGet a f) = (Ok (PFloat y), h') /\ reads_near n cm q y.
Proof.
  intros (d & extra & E) Ho (s & Hs) Ef Hc Hn Hv.
  unfold field_slot in Hs. rewrite E, Ef in Hs.
  destruct (nth_error h d) as [[|slots|]|] eqn:Ed; try discriminate.
  destruct (float_stored n cm v q Hn Hv) as (b & y & Ep & Eg & R).
  destruct (set_prim_field h a nm u fs cs act f i KFloat n cm v slots d extra b (PFloat y)) as (h' & A & B); try eassumption.
  - apply nth_error_Some. congruence.
  - intros Hu. exact (Ho _ _ _ _ _ _ _ E Hu).
  - exists h', y. auto.
Qed.
