(** Every object that a program builds fits its type. *)
From Coq Require Import String.
From Verif.Base Require Import Prelude Bits.
From Verif.Model Require Import BitCodec Types Codec Prim Float Utf8 ObjectApi.
From Verif.Spec Require Import PrimSpec CodecSpec ObjectSpec FloatSpec SendableSpec.
From Verif.Proofs Require Import CodecFacts PrimFacts FloatFacts FloatTop FloatFields ObjectFacts ObjectUnions.
Open Scope list_scope.

(** ** Numbers *)

(** Finite numbers have a mantissa that is not negative. *)
Definition nonneg (x : pyfloat) : Prop := match x with FFin _ m _ => (0 <= m)%Z | _ => True end.
Fixpoint num_ok (v : pyval) : Prop :=
  match v with
  | PFloat x => nonneg x
  | PList l => fold_right (fun x acc => num_ok x /\ acc) True l
  | _ => True
  end.

Lemma fold_and {A} (P : A -> Prop) l : fold_right (fun x acc => P x /\ acc) True l <-> Forall P l.
Proof.
  induction l as [|x l IH]; cbn; [split; constructor|]. rewrite IH, Forall_cons_iff. reflexivity.
Qed.

Lemma doubles_num v : doubles v -> num_ok v.
Proof.
  induction v as [| |x| |l IH| |] using pyval_ind'; cbn; auto.
  - destruct x; cbn; auto. lia.
  - rewrite !fold_and. rewrite !Forall_forall in *. intros H x I. apply IH; auto.
Qed.

Lemma round_nonneg mb emin m e : (0 <= mb -> 0 <= m -> 0 <= round_pattern mb emin m e)%Z.
Proof.
  intros Hb Hm. unfold round_pattern. destruct (m =? 0)%Z; [lia|].
  set (et := Z.max _ _). assert (emin <= et)%Z by lia. clearbody et.
  assert (0 <= (et - emin) * 2 ^ mb)%Z by (apply Z.mul_nonneg_nonneg; [lia|apply Z.pow_nonneg; lia]).
  destruct (Z.leb_spec et e).
  - assert (0 <= m * 2 ^ (e - et))%Z by (apply Z.mul_nonneg_nonneg; [lia|apply Z.pow_nonneg; lia]). lia.
  - pose proof (rne_bounds m (et - e) Hm ltac:(lia)) as (_ & B).
    assert (0 <= m / 2 ^ (et - e))%Z by (apply Z.div_pos; [lia|apply Z.pow_pos_nonneg; lia]). lia.
Qed.

Lemma pack_range mb eb emin x u : (1 <= mb)%Z -> (1 <= eb)%Z -> nonneg x -> encode_pattern mb eb emin x = Ok u ->
  (0 <= u < 2 ^ (mb + eb + 1))%Z.
Proof.
  intros Hm He Hx E. unfold encode_pattern in E.
  assert (2 ^ (mb + eb + 1) = 2 * 2 ^ (mb + eb))%Z as P1 by (rewrite <- Z.pow_succ_r by lia; f_equal; lia).
  assert (2 ^ (mb + eb) = 2 ^ eb * 2 ^ mb)%Z as P2 by (rewrite <- Z.pow_add_r by lia; f_equal; lia).
  assert (2 ^ mb = 2 * 2 ^ (mb - 1))%Z as P3 by (rewrite <- Z.pow_succ_r by lia; f_equal; lia).
  assert (0 < 2 ^ (mb - 1))%Z as P4 by (apply Z.pow_pos_nonneg; lia).
  assert (2 <= 2 ^ eb)%Z as P5 by (change 2%Z with (2 ^ 1)%Z at 1; apply Z.pow_le_mono_r; lia).
  rewrite P1, P2. set (inf := ((2 ^ eb - 1) * 2 ^ mb)%Z) in *.
  assert (inf = 2 ^ eb * 2 ^ mb - 2 ^ mb)%Z as PI by (unfold inf; rewrite Z.mul_sub_distr_r; lia).
  assert (0 <= inf)%Z as PN by (unfold inf; apply Z.mul_nonneg_nonneg; lia).
  clearbody inf. set (W := (2 ^ eb * 2 ^ mb)%Z) in *. clearbody W.
  destruct x as [|s|s m e].
  - injection E as <-. lia.
  - injection E as <-. destruct s; lia.
  - cbn in Hx. pose proof (round_nonneg mb emin m e ltac:(lia) Hx) as R.
    destruct (Z.leb_spec inf (round_pattern mb emin m e)); [discriminate|]. injection E as <-. destruct s; lia.
Qed.

Lemma decode_nonneg mb eb emin u : (0 <= mb)%Z -> nonneg (decode_pattern mb eb emin u).
Proof.
  intros H. unfold decode_pattern. assert (0 < 2 ^ mb)%Z by (apply Z.pow_pos_nonneg; lia).
  pose proof (Z.mod_pos_bound u (2 ^ mb) ltac:(lia)).
  destruct (_ =? _)%Z; [destruct (_ =? _)%Z; exact I|]. destruct (_ =? _)%Z; cbn; lia.
Qed.

Lemma land16 x : (0 <= Z.land x 0xFFFF < 2 ^ 16)%Z.
Proof. change 0xFFFF%Z with (Z.ones 16). rewrite Z.land_ones by lia. apply Z.mod_pos_bound. reflexivity. Qed.

Lemma lor16 x y : (0 <= x < 2 ^ 16 -> 0 <= y < 2 ^ 16 -> 0 <= Z.lor x y < 2 ^ 16)%Z.
Proof.
  intros X Y. split; [apply Z.lor_nonneg; lia|].
  destruct (Z.eq_dec (Z.lor x y) 0) as [->|N]; [reflexivity|].
  assert (0 <= Z.lor x y)%Z by (apply Z.lor_nonneg; lia).
  apply Z.log2_lt_pow2; [lia|]. rewrite Z.log2_lor by lia.
  assert (forall z, 0 <= z < 2 ^ 16 -> Z.log2 z < 16)%Z as L.
  { intros z Hz. destruct (Z.eq_dec z 0) as [->|]; [reflexivity|]. apply Z.log2_lt_pow2; lia. }
  pose proof (L x X). pose proof (L y Y). lia.
Qed.

Lemma f16_range x u : f16_from_f32 x = Ok u -> (0 <= u < 2 ^ 16)%Z.
Proof.
  intros E. unfold f16_from_f32 in E. apply bind_ok in E as (i & _ & E). apply bind_ok in E as (o & Eo & E).
  assert (u = Z.lor o (Z.land (Z.shiftr (Z.land i 0x80000000) 16) 0xFFFF)) as -> by congruence.
  apply lor16; [|apply land16]. clear E.
  destruct (_ <=? _)%Z.
  - destruct (_ <? _)%Z; injection Eo as <-; lia.
  - apply bind_ok in Eo as (w & _ & Eo). injection Eo as <-. apply land16.
Qed.

Lemma cast_float_nonneg x n cm y : nonneg x -> cast_float x n cm = Ok y -> nonneg y.
Proof.
  intros H E. unfold cast_float in E. apply bind_ok in E as (hi & Eh & E).
  assert (nonneg hi) as Hh.
  { unfold float_max in Eh.
    do 65 (destruct n as [|n]; [first [discriminate|injection Eh as <-; cbn; lia]|]). discriminate. }
  destruct cm; injection E as <-; repeat (destruct (flt _ _)); cbn; auto.
  destruct hi; cbn in *; auto.
Qed.

Lemma set_float_length n cm x b : nonneg x -> set_float n cm x = Ok b ->
  n = 16 \/ n = 32 \/ n = 64 -> List.length b = n.
Proof.
  intros Hx E N. unfold set_float in E. apply bind_ok in E as (y & Ey & E). apply bind_ok in E as (u & Eu & E).
  injection E as <-. pose proof (cast_float_nonneg _ _ _ _ Hx Ey) as Hy.
  assert (0 < n) as Hn by lia.
  assert (0 <= u < 2 ^ Z.of_nat n)%Z as U.
  { destruct N as [->|[->| ->]].
    - exact (f16_range y u Eu).
    - exact (pack_range 23 8 (-149) y u ltac:(lia) ltac:(lia) Hy Eu).
    - exact (pack_range 52 11 (-1074) y u ltac:(lia) ltac:(lia) Hy Eu). }
  rewrite (format_pattern n u Hn U). apply bits_of_N_length.
Qed.


Lemma prim_set_length env h k n cm v b : known env (APrim k n cm) -> num_ok v ->
  prim_set h k n cm v = Ok b -> List.length b = n.
Proof.
  intros K V E. unfold prim_set in E.
  assert (forall z, k <> KFloat -> set_int k n cm z = Ok b -> List.length b = n) as SI.
  { intros z NF S. assert (int_type k n) as T by (destruct k; cbn in *; congruence || lia).
    destruct (set_get k n cm z T) as (b' & S' & L & _). congruence. }
  assert (forall x, k <> KFloat -> set_int_of_float k n cm x = Ok b -> List.length b = n) as SF.
  { intros x NF F. unfold set_int_of_float in F. destruct cm; [|discriminate]. apply bind_ok in F as ((lo & hi) & _ & F).
    destruct (flt _ x); [exact (SI _ NF F)|]. destruct (flt x _); [exact (SI _ NF F)|discriminate]. }
  destruct v; try discriminate; destruct k; cbn [known] in K; try discriminate;
    try (injection E as <-; cbn; lia); try (apply (SI z); [discriminate|exact E]); try (apply (SF x); [discriminate|exact E]).
  - apply (set_float_length n cm (FFin (z <? 0)%Z (Z.abs z) 0) b); [cbn; lia|exact E|exact K].
  - exact (set_float_length n cm x b V E K).
Qed.

Lemma prim_get_num k n b v : prim_get k n b = Ok v -> num_ok v.
Proof.
  intros E. unfold prim_get in E. destruct k.
  - destruct (get_int _ _ _); injection E as <-; exact I.
  - destruct (get_int _ _ _); injection E as <-; exact I.
  - destruct (get_int _ _ _); injection E as <-; exact I.
  - apply bind_ok in E as (o & Eo & E). injection E as <-. destruct o as [x|]; [|exact I]. cbn.
    unfold get_float in Eo. destruct b as [|b0 b]; [discriminate|].
    set (u := Z.of_N (N_of_bits (b0 :: b))) in *. clearbody u.
    assert (forall y, f32_from_f16 u = Ok y -> nonneg y) as F16.
    { intros y Ey. unfold f32_from_f16 in Ey. apply bind_ok in Ey as (w & _ & Ey). injection Ey as <-.
      apply decode_nonneg. lia. }
    do 65 (destruct n as [|n];
      [first [discriminate
             |apply bind_ok in Eo as (y & Ey & Eo); injection Eo as <-; exact (F16 _ Ey)
             |injection Eo as <-; apply decode_nonneg; lia]|]).
    discriminate.
Qed.
