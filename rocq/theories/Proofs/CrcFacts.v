From Verif.Base Require Import Prelude Bits.
From Verif.Model Require Import Crc.
From Verif.Spec Require Import CrcSpec.
From Verif.Proofs Require Import ShiftReg.
Local Open Scope N_scope.

Lemma land_ones_mod x n : N.land x (N.ones n) = x mod 2 ^ n.
Proof. apply N.land_ones. Qed.

Lemma land_bit x n : negb (N.land x (2 ^ n) =? 0) = N.testbit x n.
Proof.
  destruct (N.testbit x n) eqn:E.
  - apply negb_true_iff, N.eqb_neq. intros H.
    apply (f_equal (fun v => N.testbit v n)) in H.
    rewrite N.land_spec, N.pow2_bits_true, N.bits_0, E in H. discriminate.
  - apply negb_false_iff, N.eqb_eq. apply N.bits_inj. intros i.
    rewrite N.land_spec, N.bits_0, N.pow2_bits_eqb.
    destruct (N.eqb_spec n i) as [<-|]; [rewrite E; reflexivity|apply andb_false_r].
Qed.

Lemma land_lxor_distr a b c : N.land (N.lxor a b) c = N.lxor (N.land a c) (N.land b c).
Proof.
  apply N.bits_inj. intros i. rewrite !N.land_spec, !N.lxor_spec, !N.land_spec.
  destruct (N.testbit a i), (N.testbit b i), (N.testbit c i); reflexivity.
Qed.

(** ** CRC-16 *)
Notation reg16 := (reg 16 0x1021).

Lemma crc16_bit_fb x : crc16_bit x = fb 16 0x1021 x.
Proof.
  unfold crc16_bit, fb, shl. change 0x8000 with (2 ^ 15). rewrite land_bit.
  change (16 - 1) with 15. change 0xFFFF with (N.ones 16).
  rewrite !land_ones_mod, N.shiftl_mul_pow2, N.mul_comm. change (2 ^ 1) with 2.
  destruct (N.testbit x 15); [|reflexivity].
  rewrite <- !N.land_ones. rewrite land_lxor_distr. reflexivity.
Qed.

Lemma iter_ext {A} n (f g : A -> A) x : (forall y, f y = g y) -> Nat.iter n f x = Nat.iter n g x.
Proof. intros H. induction n as [|n IH]; [reflexivity|].
  change (f (Nat.iter n f x) = g (Nat.iter n g x)). rewrite IH. apply H.
Qed.

Lemma crc16_byte_reg x b : b < 256 -> crc16_byte x b = reg16 x (bits_of_N 8 b).
Proof.
  intros Hb. unfold crc16_byte.
  rewrite (iter_ext 8 crc16_bit (fb 16 0x1021)) by apply crc16_bit_fb.
  pose proof (reg_iter 16 0x1021 ltac:(lia) ltac:(lia) (bits_of_N 8 b)) as H.
  rewrite bits_of_N_length in H. specialize (H ltac:(lia) x).
  rewrite N_of_bits_of_N_small in H by exact Hb. exact H.
Qed.

Lemma crc16_fold x l : byte_string l -> fold_left crc16_byte l x = reg16 x (bit_string l).
Proof.
  intros H. revert x. induction H as [|b l Hb Hl IH]; intros x; [reflexivity|].
  cbn [fold_left]. unfold bit_string. cbn [map concat]. rewrite reg_app, <- crc16_byte_reg by exact Hb.
  apply IH.
Qed.

Lemma crc16_reg x l : byte_string l -> x < 2 ^ 16 ->
  crc16_from_bytes l x = reg16 x (bit_string l).
Proof.
  intros H Hx. unfold crc16_from_bytes. rewrite crc16_fold by exact H.
  change 0xFFFF with (N.ones 16). rewrite N.land_ones. apply N.mod_small.
  apply (reg_lt 16 0x1021); [lia|lia|exact Hx].
Qed.

Lemma bit_string_app a b : bit_string (a ++ b) = bit_string a ++ bit_string b.
Proof. unfold bit_string. rewrite map_app, concat_app. reflexivity. Qed.

Lemma bit_string_length l : length (bit_string l) = (8 * length l)%nat.
Proof.
  unfold bit_string. induction l as [|b l IH]; [reflexivity|].
  cbn [map concat]. rewrite app_length, bits_of_N_length, IH. cbn [length]. lia.
Qed.

Theorem crc16_range l x : crc16_from_bytes l x < 2 ^ 16.
Proof.
  unfold crc16_from_bytes. change 0xFFFF with (N.ones 16). rewrite N.land_ones.
  apply N.mod_lt. discriminate.
Qed.

Theorem crc16_incremental a b x : byte_string a -> byte_string b -> x < 2 ^ 16 ->
  crc16_from_bytes (a ++ b) x = crc16_from_bytes b (crc16_from_bytes a x).
Proof.
  intros Ha Hb Hx. rewrite (crc16_reg x (a ++ b)) by (exact Hx || (apply Forall_app; auto)).
  rewrite (crc16_reg _ b) by (exact Hb || apply crc16_range).
  rewrite crc16_reg by assumption. rewrite bit_string_app. apply reg_app.
Qed.

Theorem crc16_burst a b x : byte_string a -> byte_string b -> x < 2 ^ 16 ->
  burst 16 (bit_string a) (bit_string b) ->
  crc16_from_bytes a x <> crc16_from_bytes b x.
Proof.
  intros Ha Hb Hx H. rewrite !crc16_reg by assumption.
  apply (reg_burst 16 0x1021); [lia|lia|reflexivity|exact H].
Qed.

Lemma be_number_bits l : byte_string l -> be_number l = N_of_bits (bit_string l).
Proof.
  induction l as [|b l IH] using rev_ind; intros H; [reflexivity|].
  apply Forall_app in H as [Hl Hb]. inversion Hb; subst.
  unfold be_number. rewrite fold_left_app. cbn [fold_left].
  change (fold_left _ l 0) with (be_number l). rewrite IH by exact Hl.
  rewrite bit_string_app, N_of_bits_app.
  unfold bit_string at 3 4. cbn [map concat]. rewrite app_nil_r, bits_of_N_length.
  rewrite N_of_bits_of_N_small by assumption. change (2 ^ N.of_nat 8) with 256. lia.
Qed.

(** The polynomial x^16 + x^12 + x^5 + 1. *)
Definition ccitt : N := 2 ^ 16 + 2 ^ 12 + 2 ^ 5 + 1.

Theorem crc16_remainder l x : byte_string l -> x < 2 ^ 16 ->
  premainder 16 ccitt
    (N.lxor (N.shiftl x (8 * N.of_nat (length l))) (N.shiftl (be_number l) 16))
    (crc16_from_bytes l x).
Proof.
  intros Hl Hx. rewrite crc16_reg by assumption. rewrite be_number_bits by exact Hl.
  pose proof (reg_remainder 16 0x1021 ltac:(lia) ltac:(lia) x (bit_string l) Hx) as H.
  rewrite bit_string_length in H.
  replace (N.of_nat (8 * length l)) with (8 * N.of_nat (length l)) in H by lia. exact H.
Qed.

Theorem ccitt_remainder_unique m r r' :
  premainder 16 ccitt m r -> premainder 16 ccitt m r' -> r = r'.
Proof. apply (remainder_unique 16 0x1021); [lia|lia]. Qed.

(** The order of x modulo the polynomial is 32767. A linear map on 16 bits is
    kept as the table of its values on the powers of two, so that powers of the
    step are reached by repeated squaring. *)
Fixpoint apply_pos (t : list N) (p : positive) : N :=
  match t with
  | [] => 0
  | c :: t' =>
      match p with
      | xH => c
      | xO q => apply_pos t' q
      | xI q => N.lxor c (apply_pos t' q)
      end
  end.
Definition apply_table (t : list N) (x : N) : N :=
  match x with N0 => 0 | Npos p => apply_pos t p end.
Definition table_of (f : N -> N) (w : nat) : list N :=
  map (fun i => f (2 ^ N.of_nat i)) (seq 0 w).

Definition linear (f : N -> N) : Prop := forall x y, f (N.lxor x y) = N.lxor (f x) (f y).

Lemma linear_0 f : linear f -> f 0 = 0.
Proof. intros H. specialize (H 0 0). cbn in H. rewrite N.lxor_nilpotent in H. exact H. Qed.

Lemma apply_table_pos f k : linear f -> forall p s, N.pos p < 2 ^ N.of_nat k ->
  apply_pos (map (fun i => f (2 ^ N.of_nat i)) (seq s k)) p = f (N.pos p * 2 ^ N.of_nat s).
Proof.
  intros Hf. induction k as [|k IH]; intros p s Hp; [cbn in Hp; lia|].
  replace (N.of_nat (S k)) with (N.succ (N.of_nat k)) in Hp by lia.
  rewrite N.pow_succ_r' in Hp.
  assert (forall q, 2 * q * 2 ^ N.of_nat s = q * 2 ^ N.of_nat (S s)) as Hs.
  { intros q. replace (N.of_nat (S s)) with (N.succ (N.of_nat s)) by lia.
    rewrite N.pow_succ_r'. lia. }
  cbn [seq map apply_pos]. destruct p as [q|q|].
  - change (N.pos q~1) with (2 * N.pos q + 1) in *.
    rewrite IH by lia. rewrite <- Hf. f_equal. rewrite <- Hs.
    replace (2 * N.pos q + 1) with (N.lxor 1 (2 * N.pos q)) by reflexivity.
    rewrite <- !N.shiftl_mul_pow2, N.shiftl_lxor. f_equal. rewrite N.shiftl_1_l. reflexivity.
  - change (N.pos q~0) with (2 * N.pos q) in *.
    rewrite IH by lia. rewrite <- Hs. reflexivity.
  - rewrite N.mul_1_l. reflexivity.
Qed.

Lemma apply_table_of f w x : linear f -> x < 2 ^ N.of_nat w -> apply_table (table_of f w) x = f x.
Proof.
  intros Hf Hx. destruct x as [|p]; [symmetry; apply linear_0; exact Hf|].
  cbn [apply_table]. unfold table_of. rewrite apply_table_pos by assumption.
  f_equal. apply N.mul_1_r.
Qed.

Definition compose_table (t u : list N) : list N := map (apply_table t) u.

Lemma compose_table_of f g w : linear f -> (forall x, g x < 2 ^ N.of_nat w) ->
  compose_table (table_of f w) (table_of g w) = table_of (fun x => f (g x)) w.
Proof.
  intros Hf Hg. unfold compose_table, table_of at 2 3. rewrite map_map.
  apply map_ext. intros i. apply apply_table_of; [exact Hf|apply Hg].
Qed.

Notation f16 := (fb 16 0x1021).

Lemma iter_linear n : linear (Nat.iter n f16).
Proof.
  induction n as [|n IH]; intros x y; [reflexivity|].
  change (f16 (Nat.iter n f16 (N.lxor x y)) = N.lxor (f16 (Nat.iter n f16 x)) (f16 (Nat.iter n f16 y))).
  rewrite IH. apply (fb_lxor 16 0x1021); lia.
Qed.

Lemma iter_add {A} (f : A -> A) n m x : Nat.iter (n + m) f x = Nat.iter n f (Nat.iter m f x).
Proof.
  induction n as [|n IH]; [reflexivity|].
  change (f (Nat.iter (n + m) f x) = f (Nat.iter n f (Nat.iter m f x))). f_equal. exact IH.
Qed.

Definition table (n : nat) : list N := table_of (Nat.iter n f16) 16.

Lemma table_add n m : (0 < m)%nat -> compose_table (table n) (table m) = table (n + m).
Proof.
  intros Hm. unfold table. rewrite compose_table_of.
  - unfold table_of. apply map_ext. intros i. symmetry. apply iter_add.
  - apply iter_linear.
  - intros x. destruct m; [lia|]. apply (fb_lt 16 0x1021); lia.
Qed.

Fixpoint table_pow (p : positive) : list N :=
  match p with
  | xH => table 1
  | xO q => let t := table_pow q in compose_table t t
  | xI q => let t := table_pow q in compose_table (table 1) (compose_table t t)
  end.

Lemma table_pow_spec p : table_pow p = table (Pos.to_nat p).
Proof.
  induction p as [q IH|q IH|]; cbn [table_pow]; rewrite ?IH; [| |reflexivity].
  - rewrite !table_add by lia. f_equal. lia.
  - rewrite table_add by lia. f_equal. lia.
Qed.

Definition power_at (p : positive) (x : N) : N := apply_table (table_pow p) x.

Lemma power_at_spec p x : x < 2 ^ 16 -> power_at p x = Nat.iter (Pos.to_nat p) f16 x.
Proof.
  intros Hx. unfold power_at. rewrite table_pow_spec. apply apply_table_of; [apply iter_linear|exact Hx].
Qed.

Lemma iter_period {A} (f : A -> A) x a : Nat.iter a f x = x -> forall k, Nat.iter (k * a) f x = x.
Proof.
  intros H k. induction k as [|k IH]; [reflexivity|].
  cbn [Nat.mul]. rewrite iter_add, IH. exact H.
Qed.

Lemma iter_gcd {A} (f : A -> A) x a : forall b,
  Nat.iter a f x = x -> Nat.iter b f x = x -> Nat.iter (Nat.gcd a b) f x = x.
Proof.
  induction a as [a IH] using (well_founded_induction lt_wf). intros b Ha Hb.
  destruct a as [|a]; [exact Hb|]. cbn [Nat.gcd].
  change (a - snd (Nat.divmod b a 0 a))%nat with (b mod S a)%nat.
  assert (b mod S a < S a)%nat as Hlt by (apply Nat.mod_upper_bound; lia).
  apply (IH _ Hlt); [|exact Ha].
  rewrite (Nat.div_mod b (S a)) in Hb by lia.
  rewrite (Nat.add_comm (S a * _)), iter_add, (Nat.mul_comm (S a)), iter_period in Hb by exact Ha.
  exact Hb.
Qed.

(** 32767 = 7 * 31 * 151. *)
Definition proper_ok (d : N) : bool :=
  negb (32767 mod d =? 0) || (d =? 1) ||
  (((4681 mod d =? 0) || (1057 mod d =? 0) || (217 mod d =? 0)) &&
   ((4681 mod (32767 / d) =? 0) || (1057 mod (32767 / d) =? 0) || (217 mod (32767 / d) =? 0))).

Lemma divisor_cases (g h : N) : g * h = 32767 -> h <> 1 ->
  4681 mod g = 0 \/ 1057 mod g = 0 \/ 217 mod g = 0.
Proof.
  intros Hgh Hh.
  assert (forall i, (i < 182)%nat -> proper_ok (N.of_nat (S i)) = true) as Hall.
  { intros i Hi. assert (forallb (fun j => proper_ok (N.of_nat (S j))) (seq 0 182) = true) as Hf
      by (vm_compute; reflexivity).
    rewrite forallb_forall in Hf. apply Hf. apply in_seq. lia. }
  assert (forall d, 1 <= d <= 182 -> proper_ok d = true) as Hd.
  { intros d Hd. specialize (Hall (N.to_nat (d - 1)) ltac:(lia)).
    replace (N.of_nat (S (N.to_nat (d - 1)))) with d in Hall by lia. exact Hall. }
  assert (g <> 0 /\ h <> 0) as [Hg0 Hh0] by (split; intros ->; lia).
  assert (32767 mod g = 0) as Hmg
    by (rewrite <- Hgh, N.mul_comm; apply N.mod_mul; exact Hg0).
  assert (32767 mod h = 0) as Hmh by (rewrite <- Hgh; apply N.mod_mul; exact Hh0).
  assert (32767 / h = g) as Hqh by (rewrite <- Hgh; apply N.div_mul; exact Hh0).
  destruct (N.le_gt_cases g 182) as [Hg|Hg].
  - specialize (Hd g ltac:(lia)). unfold proper_ok in Hd. rewrite Hmg in Hd.
    cbn [negb orb N.eqb] in Hd. apply orb_true_iff in Hd as [Hd|Hd].
    + apply N.eqb_eq in Hd as ->. left. reflexivity.
    + apply andb_true_iff in Hd as [Hd _]. apply orb_true_iff in Hd as [Hd|Hd];
        [apply orb_true_iff in Hd as [Hd|Hd]|]; apply N.eqb_eq in Hd; auto.
  - assert (h <= 182) as Hh1.
    { destruct (N.le_gt_cases h 182) as [|Hh2]; [assumption|]. exfalso.
      assert (183 * 183 <= g * h) by (apply N.mul_le_mono; lia). lia. }
    specialize (Hd h ltac:(lia)). unfold proper_ok in Hd. rewrite Hmh, Hqh in Hd.
    cbn [negb orb N.eqb] in Hd. apply orb_true_iff in Hd as [Hd|Hd].
    + apply N.eqb_eq in Hd. contradiction.
    + apply andb_true_iff in Hd as [_ Hd]. apply orb_true_iff in Hd as [Hd|Hd];
        [apply orb_true_iff in Hd as [Hd|Hd]|]; apply N.eqb_eq in Hd; auto.
Qed.

Lemma order_values : power_at 32767 0x8000 = 0x8000 /\ power_at 4681 0x8000 <> 0x8000 /\
  power_at 1057 0x8000 <> 0x8000 /\ power_at 217 0x8000 <> 0x8000.
Proof. vm_compute. repeat split; discriminate. Qed.

Lemma order_x n : (0 < n)%nat -> N.of_nat n < 32767 -> Nat.iter n f16 0x8000 <> 0x8000.
Proof.
  intros Hn Hlt E.
  destruct order_values as (H1 & H2 & H3 & H4). rewrite power_at_spec in H1, H2, H3, H4 by reflexivity.
  pose proof (iter_gcd _ _ _ _ E H1) as Hg. set (g := Nat.gcd n _) in Hg.
  assert (exists h, N.of_nat g * h = 32767) as [h Hh].
  { destruct (Nat.gcd_divide_r n (Pos.to_nat 32767)) as [c Hc]. fold g in Hc.
    exists (N.of_nat c). apply (f_equal N.of_nat) in Hc.
    rewrite Nat2N.inj_mul, positive_nat_N in Hc. lia. }
  assert (N.of_nat g < 32767) as Hgl.
  { destruct (Nat.gcd_divide_l n (Pos.to_nat 32767)) as [c Hc]. fold g in Hc.
    assert (g <= n)%nat by (destruct c; nia). lia. }
  assert (forall p, N.pos p mod N.of_nat g = 0 -> Nat.iter (Pos.to_nat p) f16 0x8000 = 0x8000) as Hp.
  { clear - Hg Hh. clearbody g. intros p Hm.
    assert (N.of_nat g <> 0) as Hg0 by (intros E0; rewrite E0 in Hh; discriminate).
    pose proof (proj2 (N.div_exact _ _ Hg0) Hm) as Hq.
    set (q := N.pos p / N.of_nat g) in Hq. clearbody q.
    assert (Pos.to_nat p = N.to_nat q * g)%nat as -> by nia.
    apply iter_period. exact Hg. }
  assert (h <> 1) as Hh1 by (clear - Hh Hgl; intros ->; lia).
  destruct (divisor_cases _ _ Hh Hh1) as [Hm|[Hm|Hm]].
  - exact (H2 (Hp _ Hm)).
  - exact (H3 (Hp _ Hm)).
  - exact (H4 (Hp _ Hm)).
Qed.

Lemma step_P : f16 0x8000 = 0x1021.
Proof. reflexivity. Qed.

Definition two_bound : nat := N.to_nat 32766.

Theorem crc16_three_bits a b x : byte_string a -> byte_string b -> x < 2 ^ 16 ->
  length a = length b -> (N.of_nat (length a) <= 4095)%N ->
  (1 <= distance (bit_string a) (bit_string b) <= 3)%nat ->
  crc16_from_bytes a x <> crc16_from_bytes b x.
Proof.
  intros Ha Hb Hx Hl Hlen Hd. rewrite !crc16_reg by assumption.
  assert (length (bit_string a) = length (bit_string b)) as Hbl
    by (rewrite !bit_string_length; lia).
  destruct (Nat.eq_dec (distance (bit_string a) (bit_string b)) 2) as [H2|H2].
  - apply (reg_two 16 0x1021) with (bound := two_bound); [lia|lia|reflexivity| |exact Hbl| |exact H2].
    + intros k Hk. change 0x1021 with (f16 0x8000) at 2. rewrite <- iter_succ_r.
      apply order_x; unfold two_bound in Hk; lia.
    + rewrite bit_string_length. unfold two_bound. lia.
  - apply (reg_odd 16 0x1021); [lia|lia|reflexivity|exact Hbl|].
    assert (distance (bit_string a) (bit_string b) = 1 \/ distance (bit_string a) (bit_string b) = 3)%nat
      as [->| ->] by lia; reflexivity.
Qed.

Theorem crc16_odd a b x : byte_string a -> byte_string b -> x < 2 ^ 16 ->
  length a = length b -> Nat.odd (distance (bit_string a) (bit_string b)) = true ->
  crc16_from_bytes a x <> crc16_from_bytes b x.
Proof.
  intros Ha Hb Hx Hl Hd. rewrite !crc16_reg by assumption.
  apply (reg_odd 16 0x1021); [lia|lia|reflexivity| |exact Hd].
  rewrite !bit_string_length. lia.
Qed.

(** ** The 64-bit signature *)
Notation reg64 := (reg 64 POLY64).

Lemma sig_bit_fb x : x < 2 ^ 64 -> sig_bit x = fb 64 POLY64 x.
Proof.
  intros Hx. unfold sig_bit, fb, shl. rewrite N.shiftl_1_l. rewrite land_bit.
  change (64 - 1) with 63. change MASK64 with (N.ones 64).
  rewrite !N.land_ones, N.shiftl_mul_pow2, N.mul_comm. change (2 ^ 1) with 2.
  destruct (N.testbit x 63) eqn:E; [reflexivity|].
  symmetry. apply N.mod_small.
  enough (x < 2 ^ 63) by (change (2 ^ 64) with (2 * 2 ^ 63); lia).
  apply lt_pow2_bits. intros i Hi. destruct (N.eq_dec i 63) as [->|]; [exact E|].
  apply (testbit_high x 64); [exact Hx|lia].
Qed.

Lemma poly64_ok : POLY64 < 2 ^ 64 /\ N.odd POLY64 = true.
Proof. split; [vm_compute|]; reflexivity. Qed.

Lemma sig_iter n x : x < 2 ^ 64 -> Nat.iter n sig_bit x = Nat.iter n (fb 64 POLY64) x.
Proof.
  intros Hx. induction n as [|n IH]; [reflexivity|].
  change (sig_bit (Nat.iter n sig_bit x) = fb 64 POLY64 (Nat.iter n (fb 64 POLY64) x)).
  rewrite IH. apply sig_bit_fb.
  destruct n; [exact Hx|]. apply (fb_lt 64 POLY64); apply poly64_ok || lia.
Qed.

Lemma sig_byte_reg x b : b < 256 -> x < 2 ^ 64 -> sig_byte x b = reg64 x (bits_of_N 8 b).
Proof.
  intros Hb Hx. unfold sig_byte.
  assert (N.land (N.shiftl b 56) MASK64 = N.shiftl b 56) as ->.
  { change MASK64 with (N.ones 64). rewrite N.land_ones. apply N.mod_small.
    rewrite N.shiftl_mul_pow2. change (2 ^ 64) with (256 * 2 ^ 56).
    apply N.mul_lt_mono_pos_r; [reflexivity|exact Hb]. }
  rewrite sig_iter.
  - pose proof (reg_iter 64 POLY64 ltac:(lia) (proj1 poly64_ok) (bits_of_N 8 b)) as H.
    rewrite bits_of_N_length in H. specialize (H ltac:(lia) x).
    rewrite N_of_bits_of_N_small in H by exact Hb. exact H.
  - apply lxor_lt; [exact Hx|]. rewrite N.shiftl_mul_pow2. change (2 ^ 64) with (256 * 2 ^ 56).
    apply N.mul_lt_mono_pos_r; [reflexivity|exact Hb].
Qed.

Lemma reg64_lt x l : x < 2 ^ 64 -> reg64 x l < 2 ^ 64.
Proof. apply (reg_lt 64 POLY64); apply poly64_ok || lia. Qed.

Lemma sig_add_reg x l : byte_string l -> x < 2 ^ 64 -> sig_add x l = reg64 x (bit_string l).
Proof.
  intros H. revert x. unfold sig_add. induction H as [|b l Hb Hl IH]; intros x Hx; [reflexivity|].
  cbn [fold_left]. unfold bit_string. cbn [map concat].
  rewrite reg_app, <- sig_byte_reg by assumption.
  apply IH. rewrite sig_byte_reg by assumption. apply reg64_lt. exact Hx.
Qed.

Lemma sig_add_lt x l : byte_string l -> x < 2 ^ 64 -> sig_add x l < 2 ^ 64.
Proof. intros H Hx. rewrite sig_add_reg by assumption. apply reg64_lt. exact Hx. Qed.

Theorem sig_chunked chunks_ x : sig_add x (concat chunks_) = fold_left sig_add chunks_ x.
Proof.
  revert x. induction chunks_ as [|c cs IH]; intros x; [reflexivity|].
  cbn [concat fold_left]. rewrite <- IH. unfold sig_add. apply fold_left_app.
Qed.

Lemma lxor_mask x : x < 2 ^ 64 -> N.lxor (N.land x MASK64) MASK64 < 2 ^ 64.
Proof.
  intros Hx. change MASK64 with (N.ones 64). rewrite N.land_ones, N.mod_small by exact Hx.
  apply lxor_lt; [exact Hx|reflexivity].
Qed.

Lemma sig_value_init x : x < 2 ^ 64 -> sig_init (Some (sig_value x)) = x.
Proof.
  intros Hx. unfold sig_init, sig_value. change MASK64 with (N.ones 64).
  rewrite !N.land_ones, (N.mod_small x) by exact Hx.
  rewrite N.mod_small by (apply lxor_lt; [exact Hx|reflexivity]).
  rewrite N.lxor_assoc, N.lxor_nilpotent. apply N.lxor_0_r.
Qed.

Theorem sig_resume a b : byte_string a -> byte_string b ->
  sig_value (sig_add (sig_init (Some (compute_signature a))) b) = compute_signature (a ++ b).
Proof.
  intros Ha Hb. unfold compute_signature.
  rewrite sig_value_init by (apply sig_add_lt; [exact Ha|reflexivity]).
  unfold sig_add. rewrite fold_left_app. reflexivity.
Qed.

Lemma sig_value_inj x y : x < 2 ^ 64 -> y < 2 ^ 64 -> sig_value x = sig_value y -> x = y.
Proof.
  intros Hx Hy E. rewrite <- (sig_value_init x Hx), <- (sig_value_init y Hy), E. reflexivity.
Qed.

Theorem sig_burst a b : byte_string a -> byte_string b ->
  burst 64 (bit_string a) (bit_string b) -> compute_signature a <> compute_signature b.
Proof.
  intros Ha Hb H E. unfold compute_signature in E.
  apply sig_value_inj in E; [|apply sig_add_lt; [assumption|reflexivity]
                             |apply sig_add_lt; [assumption|reflexivity]].
  rewrite !sig_add_reg in E by (assumption || reflexivity). revert E.
  apply (reg_burst 64 POLY64); apply poly64_ok || lia || exact H.
Qed.

Theorem sig_range data : byte_string data -> compute_signature data < 2 ^ 64.
Proof.
  intros H. unfold compute_signature, sig_value. apply lxor_mask. apply sig_add_lt; [exact H|reflexivity].
Qed.

Theorem sig_remainder data : byte_string data ->
  premainder 64 (2 ^ 64 + POLY64)
    (N.lxor (N.shiftl (N.ones 64) (8 * N.of_nat (length data))) (N.shiftl (be_number data) 64))
    (N.lxor (compute_signature data) (N.ones 64)).
Proof.
  intros H. unfold compute_signature.
  assert (N.lxor (sig_value (sig_add (sig_init None) data)) (N.ones 64) = sig_add (sig_init None) data) as ->.
  { unfold sig_value. change MASK64 with (N.ones 64).
    rewrite N.land_ones, N.mod_small by (apply sig_add_lt; [exact H|reflexivity]).
    rewrite N.lxor_assoc, N.lxor_nilpotent. apply N.lxor_0_r. }
  rewrite sig_add_reg by (exact H || reflexivity). rewrite be_number_bits by exact H.
  pose proof (reg_remainder 64 POLY64 ltac:(lia) (proj1 poly64_ok) (N.ones 64) (bit_string data) ltac:(reflexivity)) as Hr.
  rewrite bit_string_length in Hr.
  replace (N.of_nat (8 * length data)) with (8 * N.of_nat (length data)) in Hr by lia. exact Hr.
Qed.

(** The little-endian bytes fed to further hashing identify the value. *)
Lemma le_bytes_value n : forall x,
  fold_right (fun b acc => b + 256 * acc) 0
    (map (fun i => N.land (N.shiftr x (8 * N.of_nat i)) 0xFF) (seq 0 n)) = x mod 256 ^ N.of_nat n.
Proof.
  induction n as [|n IH]; intros x; [rewrite N.mod_1_r; reflexivity|].
  cbn [seq map fold_right]. rewrite <- seq_shift, map_map.
  rewrite (map_ext _ (fun i => N.land (N.shiftr (x / 256) (8 * N.of_nat i)) 0xFF)).
  - rewrite IH. replace (N.of_nat (S n)) with (N.succ (N.of_nat n)) by lia.
    rewrite N.pow_succ_r', N.mod_mul_r by (try apply N.pow_nonzero; discriminate).
    change 0xFF with (N.ones 8). rewrite N.land_ones, N.shiftr_0_r. reflexivity.
  - intros i. f_equal. change (x / 256) with (x / 2 ^ 8). rewrite <- N.shiftr_div_pow2, N.shiftr_shiftr.
    f_equal. lia.
Qed.

Lemma crc64_bytes_value x : x < 2 ^ 64 ->
  fold_right (fun b acc => b + 256 * acc) 0 (bytes_from_crc64 x) = x.
Proof.
  intros Hx. unfold bytes_from_crc64. rewrite le_bytes_value. apply N.mod_small. exact Hx.
Qed.
