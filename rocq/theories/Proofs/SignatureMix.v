(** Which changes of a nested signature the outer signature shows. *)
From Coq Require Import String.
From Verif.Base Require Import Prelude Bits.
From Verif.Model Require Import Types Slcan Crc Parser.
From Verif.Spec Require Import CrcSpec ParserSpec SignatureSpec.
From Verif.Proofs Require Import ShiftReg CrcFacts ParserText ParserFacts ParserNorm SignatureText SignatureHash.
Open Scope list_scope.
Open Scope N_scope.

(** ** Eight bytes into the register: a linear map *)
Definition feed (x s : N) : N := reg64 x (bit_string (bytes_from_crc64 s)).
Lemma feed_add x s : x < 2 ^ 64 -> s < 2 ^ 64 -> sig_add x (bytes_from_crc64 s) = feed x s.
Proof. intros Hx Hs. apply sig_add_reg; [apply crc64_bytes; exact Hs|exact Hx]. Qed.
Lemma xor_bits_app (a b c d : bits) : length a = length c -> xor_bits (a ++ b) (c ++ d) = xor_bits a c ++ xor_bits b d.
Proof.
  revert c. induction a as [|x a IH]; intros [|y c] H; try discriminate; [reflexivity|]. cbn [app xor_bits]. rewrite IH by (cbn [length] in H; lia).
  reflexivity.
Qed.
Lemma bits_lxor n a b : bits_of_N n (N.lxor a b) = xor_bits (bits_of_N n a) (bits_of_N n b).
Proof.
  revert a b. induction n as [|n IH]; intros a b; [reflexivity|]. cbn [bits_of_N].
  rewrite xor_bits_app by (rewrite !bits_of_N_length; reflexivity). rewrite <- IH. cbn [xor_bits].
  rewrite !N.div2_spec, N.shiftr_lxor, <- !N.bit0_odd, N.lxor_spec. reflexivity.
Qed.
Lemma bytes_lxor s t : bit_string (bytes_from_crc64 (N.lxor s t)) =
  xor_bits (bit_string (bytes_from_crc64 s)) (bit_string (bytes_from_crc64 t)).
Proof.
  unfold bytes_from_crc64, bit_string. generalize (seq 0 8). intros l. induction l as [|i l IH]; [reflexivity|].
  cbn [map concat]. rewrite IH, xor_bits_app by (rewrite !bits_of_N_length; reflexivity).
  rewrite N.shiftr_lxor, land_lxor_distr, bits_lxor. reflexivity.
Qed.
Lemma feed_lxor x y s t : feed (N.lxor x y) (N.lxor s t) = N.lxor (feed x s) (feed y t).
Proof.
  unfold feed. rewrite bytes_lxor. apply (reg_lxor 64 POLY64); first [lia | apply poly64_ok | rewrite !bit_string_length; reflexivity].
Qed.
Lemma feed_lt x s : x < 2 ^ 64 -> feed x s < 2 ^ 64.
Proof. apply reg64_lt. Qed.

(** How a difference before a nested field continues after it; and the
    difference that a change of its signature makes. *)
Definition carry (x : N) : N := feed (feed x 0) x.
Definition enter (s : N) : N := feed (feed 0 s) 0.
Lemma carry_linear : linear carry.
Proof.
  intros x y. unfold carry. rewrite <- feed_lxor. f_equal. rewrite <- feed_lxor, N.lxor_0_l. reflexivity.
Qed.
Lemma enter_linear : linear enter.
Proof.
  intros s t. unfold enter. rewrite <- feed_lxor, N.lxor_0_l. f_equal. rewrite <- feed_lxor, N.lxor_0_l. reflexivity.
Qed.
Lemma carry_lt x : x < 2 ^ 64 -> carry x < 2 ^ 64.
Proof. intros H. unfold carry. apply feed_lt, feed_lt, H. Qed.
Lemma enter_lt s : enter s < 2 ^ 64.
Proof. unfold enter. apply feed_lt, feed_lt. reflexivity. Qed.
Lemma lxor_cancel a b c : N.lxor (N.lxor a c) (N.lxor b c) = N.lxor a b.
Proof.
  apply N.bits_inj. intros i. rewrite !N.lxor_spec. destruct (N.testbit a i), (N.testbit b i), (N.testbit c i); reflexivity.
Qed.
Lemma value_lxor x y : x < 2 ^ 64 -> y < 2 ^ 64 -> N.lxor (sig_value x) (sig_value y) = N.lxor x y.
Proof.
  intros Hx Hy. unfold sig_value. change MASK64 with (N.ones 64). rewrite !N.land_ones, !N.mod_small by assumption.
  apply lxor_cancel.
Qed.
Lemma mix_feed x s : x < 2 ^ 64 -> s < 2 ^ 64 -> mix x (Some s) = feed (feed x s) (sig_value x).
Proof.
  intros Hx Hs. cbn [mix]. rewrite (feed_add x s) by assumption. apply feed_add; [apply feed_lt; exact Hx|apply sig_value_lt; exact Hx].
Qed.
Lemma mix_carry x y s : x < 2 ^ 64 -> y < 2 ^ 64 -> s < 2 ^ 64 ->
  N.lxor (mix x (Some s)) (mix y (Some s)) = carry (N.lxor x y).
Proof.
  intros Hx Hy Hs. rewrite !mix_feed by assumption. rewrite <- feed_lxor, value_lxor by assumption. rewrite <- feed_lxor, N.lxor_nilpotent. unfold carry. reflexivity.
Qed.
Lemma mix_enter x s t : x < 2 ^ 64 -> s < 2 ^ 64 -> t < 2 ^ 64 ->
  N.lxor (mix x (Some s)) (mix x (Some t)) = enter (N.lxor s t).
Proof.
  intros Hx Hs Ht. rewrite !mix_feed by assumption. rewrite <- feed_lxor, <- feed_lxor, !N.lxor_nilpotent. unfold enter. reflexivity.
Qed.
Fixpoint carries (f : N -> N) (sigs : list (option N)) (x : N) : N :=
  match sigs with [] => x | Some _ :: l => carries f l (f x) | None :: l => carries f l x end.
Lemma folds_carry (m : N -> option N -> N) (f : N -> N) (P : N -> Prop) (Q : option N -> Prop) :
  (forall x, m x None = x) -> (forall x o, P x -> Q o -> P (m x o)) ->
  (forall x y s, P x -> P y -> Q (Some s) -> N.lxor (m x (Some s)) (m y (Some s)) = f (N.lxor x y)) ->
  forall sigs x y, P x -> P y -> Forall Q sigs -> N.lxor (fold_left m sigs x) (fold_left m sigs y) = carries f sigs (N.lxor x y).
Proof.
  intros H0 HP HQ sigs x y Hx Hy H. revert x y Hx Hy. induction H as [|o l Ho H IH]; intros x y Hx Hy; [reflexivity|]. cbn [fold_left].
  rewrite IH by (apply HP; assumption). destruct o as [s|]; cbn [carries].
  - rewrite HQ by assumption. reflexivity.
  - rewrite !H0. reflexivity.
Qed.
Lemma mixes_carry sigs x y : x < 2 ^ 64 -> y < 2 ^ 64 -> Forall small_sig sigs ->
  N.lxor (fold_left mix sigs x) (fold_left mix sigs y) = carries carry sigs (N.lxor x y).
Proof.
  apply (folds_carry mix carry (fun x => x < 2 ^ 64) small_sig).
  - intros a. cbn [mix]. reflexivity.
  - intros a o. apply mix_lt.
  - intros a b s Ha Hb Hs. apply mix_carry; [exact Ha|exact Hb|]. apply Hs. reflexivity.
Qed.

(** ** Linear maps given by the images of the powers of two *)
Fixpoint cols (t : list N) (i : N) (x : N) : N :=
  match t with [] => 0 | c :: t' => N.lxor (if N.testbit x i then c else 0) (cols t' (N.succ i) x) end.
Lemma cols_linear t i : linear (cols t i).
Proof.
  intros x y. revert i. induction t as [|c t IH]; intros i; [reflexivity|]. cbn [cols]. rewrite IH, N.lxor_spec.
  generalize (cols t (N.succ i) x) (cols t (N.succ i) y). intros a b.
  destruct (N.testbit x i), (N.testbit y i); cbn [xorb]; apply N.bits_inj; intros j; rewrite ?N.lxor_spec, ?N.bits_0;
    destruct (N.testbit a j), (N.testbit b j), (N.testbit c j); reflexivity.
Qed.
Lemma linear_compose f g : linear f -> linear g -> linear (fun x => f (g x)).
Proof. intros Hf Hg x y. rewrite Hg. apply Hf. Qed.
Lemma linear_same f g x : linear f -> linear g -> table_of f 64 = table_of g 64 -> x < 2 ^ 64 -> f x = g x.
Proof.
  intros Hf Hg E Hx. rewrite <- (apply_table_of f 64 x), <- (apply_table_of g 64 x) by assumption. rewrite E. reflexivity.
Qed.

(** ** The kernel *)
Definition k1 : N := 0x1cf7c6ac5b6a6630.
Definition k2 : N := 0xe56ee19c1cfb90e1.
Definition k3 : N := 0xf99927304791f6d1.
(** Something like an inverse of [carry]. *)
Definition back : list N :=
  [0x0; 0x0; 0xaa6f21cb8d383ce8; 0x17afc2b452e85a66;
   0x3b5595fe4bde2aea; 0xfc0aa3aba2db9146; 0x76134dd3e41d5e0; 0x10a3f262ff7bc562;
   0x336042f789dafea8; 0xfeb0350ad9353328; 0x64c4f3089e034a06; 0xb5837c8ea9d0c34c;
   0xe9e38730211be8c0; 0x6c8088454f22efe6; 0x54e027c1265141e6; 0xd97a7677a56bb0c4;
   0xdbd6d19e5f2c3446; 0x168bbec130b53848; 0x25eaabb8d40e8886; 0x29be5636be3328ee;
   0xd0bb653860ffa32c; 0xcc1982511d7f8fc8; 0x3b75daabe44a3940; 0xf8f1d6d0bc4254ca;
   0x799bc642ef0249ce; 0x1160105b1871e0ee; 0xd2b01a5a81bbc6c2; 0x4b3e2b414ba4c862;
   0x7fdbd62aa050dd46; 0x47ff2bacbab4f208; 0x95d2b9d13fea16ec; 0x9354d41b77783780;
   0x5d5aadf504ec3024; 0xae49d5fc6f1c80e8; 0xa75c33a2e47e1464; 0x9394e027d3c72f4c;
   0xf2f8911709d1a10a; 0x43611e4f98f736ee; 0x2816f684fd67b3ec; 0x842895a9b2797a64;
   0xb4edf9baa52572ce; 0x4bccb95d50f4392e; 0xc7ede2d3f07eb92e; 0xeb2452049d49f328;
   0x21379f397ccb97ac; 0x5405ed1047c1c76a; 0x96a4e864b424180c; 0xd57d1c5f9ecd9dcc;
   0x58a57f67a6e866c8; 0x1f68aa5409936d26; 0xd8cbbd261c283560; 0x483821e2524f0960;
   0x6296245ccd541d4c; 0x6e2e60ca03c0b682; 0xefd8c782dca351e0; 0x66dbbf842d7077ec;
   0xc06ad5da32af3b62; 0xce0b5073ba30ac0; 0xd7e8fc267573fac0; 0x10967e69e7f2cbe6;
   0xfdd4524932377266; 0xc9f88b7c59a53a06; 0x47bbd098818f45ea; 0xb223c7b9f47ba56c].
Definition clear (x : N) : N := N.lxor x (N.lxor (if N.testbit x 4 then k1 else 0) (if N.testbit x 0 then k2 else 0)).
Lemma clear_linear : linear clear.
Proof.
  intros x y. unfold clear. rewrite !N.lxor_spec. generalize k1 k2. intros a b.
  apply N.bits_inj. intros i. rewrite !N.lxor_spec.
  destruct (N.testbit x 4), (N.testbit y 4), (N.testbit x 0), (N.testbit y 0); cbn [xorb]; rewrite ?N.bits_0;
    destruct (N.testbit x i), (N.testbit y i), (N.testbit a i), (N.testbit b i); reflexivity.
Qed.
Lemma back_table : table_of (fun x => cols back 0 (carry x)) 64 = table_of clear 64.
Proof. vm_compute. reflexivity. Qed.
Lemma back_carry x : x < 2 ^ 64 -> cols back 0 (carry x) = clear x.
Proof.
  intros Hx. apply (linear_same (fun x => cols back 0 (carry x)) clear); [|exact clear_linear|exact back_table|exact Hx].
  apply linear_compose; [apply cols_linear|apply carry_linear].
Qed.
Lemma carry_zero x : x < 2 ^ 64 -> carry x = 0 <-> x = 0 \/ x = k1 \/ x = k2 \/ x = k3.
Proof.
  intros Hx. split.
  - intros E. pose proof (back_carry x Hx) as H. rewrite E, (linear_0 _ (cols_linear back 0)) in H.
    symmetry in H. apply N.lxor_eq in H. destruct (N.testbit x 4), (N.testbit x 0); cbn [N.lxor] in H; rewrite ?N.lxor_0_r in H; auto.
  - intros [-> |[-> |[-> | ->]]]; vm_compute; reflexivity.
Qed.
(** The parities of the bits at even and at odd places. *)
Definition parities : list N := concat (repeat [1; 2] 32).
Lemma parity_table : table_of (fun x => cols parities 0 (carry x)) 64 = table_of (fun _ => 0) 64.
Proof. vm_compute. reflexivity. Qed.
Lemma parity_carry x : x < 2 ^ 64 -> cols parities 0 (carry x) = 0.
Proof.
  intros Hx. apply (linear_same (fun x => cols parities 0 (carry x)) (fun _ => 0)); [| |exact parity_table|exact Hx].
  - apply linear_compose; [apply cols_linear|apply carry_linear].
  - intros a b. reflexivity.
Qed.
Lemma carry_twice x : x < 2 ^ 64 -> carry (carry x) = 0 -> carry x = 0.
Proof.
  intros Hx H. apply carry_zero in H; [|apply carry_lt; exact Hx]. destruct H as [H|H]; [exact H|exfalso].
  pose proof (parity_carry x Hx) as P. destruct H as [E|[E|E]]; rewrite E in P; vm_compute in P; discriminate.
Qed.
Lemma carry_0 : carry 0 = 0.
Proof. apply linear_0, carry_linear. Qed.
Lemma carries_zero_iff (f : N -> N) (P : N -> Prop) : f 0 = 0 -> (forall x, P x -> P (f x)) -> (forall x, P x -> f (f x) = 0 -> f x = 0) ->
  forall l x, P x -> carries f l x = 0 <-> x = 0 \/ (exists s, In (Some s) l) /\ f x = 0.
Proof.
  intros F0 FP F2. intros l. induction l as [|[s|] l IH]; intros x Hx; cbn [carries].
  - split; [auto|]. intros [H|((s & []) & _)]. exact H.
  - rewrite IH by (apply FP; exact Hx). split.
    + intros H. right. split; [exists s; left; reflexivity|]. destruct H as [H|(_ & H)]; [exact H|]. apply F2; assumption.
    + intros [-> |(_ & H)]; left; [exact F0|exact H].
  - rewrite IH by exact Hx. split; (intros [H|((s & H1) & H2)]; [left; exact H|right; split; [|exact H2]; exists s]).
    + right. exact H1.
    + destruct H1 as [H1|H1]; [discriminate|exact H1].
Qed.
Lemma carries_zero l x : x < 2 ^ 64 -> carries carry l x = 0 <-> x = 0 \/ (exists s, In (Some s) l) /\ carry x = 0.
Proof. exact (carries_zero_iff carry (fun x => x < 2 ^ 64) carry_0 carry_lt carry_twice l x). Qed.

(** ** Which changes enter the kernel *)
Definition e1 : N := 0xf35b8145982853.
Definition e2 : N := 0x9ce093e25a8eb57b.
Definition e3 : N := 0x9c13c8631f169d28.
Lemma be_zero (l : list N) : be_number l = 0 -> Forall (fun b => b = 0) l.
Proof.
  induction l as [|b l IH] using rev_ind; intros H; [constructor|]. unfold be_number in *. rewrite fold_left_app in H. cbn [fold_left] in H.
  apply Forall_app. split; [apply IH; lia|]. constructor; [lia|constructor].
Qed.
Lemma le_zero (l : list N) : Forall (fun b => b = 0) l -> fold_right (fun x acc => x + 256 * acc) 0 l = 0.
Proof. intros H. induction H as [|b l -> H IH]; [reflexivity|]. cbn [fold_right]. rewrite IH. reflexivity. Qed.
Lemma zero_bits : bit_string (bytes_from_crc64 0) = repeat false 64.
Proof. vm_compute. reflexivity. Qed.
Lemma twice_nz l n : length l = 64%nat -> N_of_bits l <> 0 -> reg64 (reg64 0 l) (repeat false n) <> 0.
Proof.
  intros Hl Hn.
  apply (reg_zeros_nz 64 POLY64 ltac:(lia) (proj1 poly64_ok) (proj2 poly64_ok)); [apply reg64_lt; reflexivity|].
  apply (reg_short_nz 64 POLY64 ltac:(lia) (proj1 poly64_ok) (proj2 poly64_ok)); [rewrite Hl; reflexivity|exact Hn].
Qed.
Lemma enter_eq s : enter s = reg64 (reg64 0 (bit_string (bytes_from_crc64 s))) (bit_string (bytes_from_crc64 0)).
Proof. unfold enter, feed. reflexivity. Qed.
Lemma bytes_nz s : s < 2 ^ 64 -> s <> 0 -> N_of_bits (bit_string (bytes_from_crc64 s)) <> 0.
Proof.
  intros Hs H. pose proof (proj1 (proj2 (crc64_bytes s Hs))) as B. pose proof (crc64_bytes_value s Hs) as V. revert B V.
  generalize (bytes_from_crc64 s). intros b B V E. rewrite <- be_number_bits in E by exact B.
  apply H. rewrite <- V. apply le_zero, be_zero. exact E.
Qed.
Lemma enter_nz s : s < 2 ^ 64 -> s <> 0 -> enter s <> 0.
Proof.
  intros Hs H. rewrite enter_eq, zero_bits. apply twice_nz; [rewrite bit_string_length; reflexivity|]. apply bytes_nz; assumption.
Qed.
Lemma enter_inj s t : s < 2 ^ 64 -> t < 2 ^ 64 -> enter s = enter t -> s = t.
Proof.
  intros Hs Ht E. apply N.lxor_eq. destruct (N.eq_dec (N.lxor s t) 0) as [H|H]; [exact H|exfalso].
  apply (enter_nz (N.lxor s t)); [apply lxor_lt; assumption|exact H|]. rewrite enter_linear, E. apply N.lxor_nilpotent.
Qed.
Lemma carry_enter s : s < 2 ^ 64 -> carry (enter s) = 0 <-> s = 0 \/ s = e1 \/ s = e2 \/ s = e3.
Proof.
  intros Hs. rewrite carry_zero by apply enter_lt.
  assert (A : enter 0 = 0) by (apply linear_0, enter_linear).
  assert (A1 : enter e1 = k1) by (vm_compute; reflexivity). assert (A2 : enter e2 = k2) by (vm_compute; reflexivity).
  assert (A3 : enter e3 = k3) by (vm_compute; reflexivity). rewrite <- A at 1. rewrite <- A1, <- A2, <- A3.
  split; (intros [E|[E|[E|E]]]; [left|right; left|right; right; left|right; right; right]);
    try (apply enter_inj; [exact Hs|reflexivity|exact E]); rewrite E; reflexivity.
Qed.

(** ** One changed signature *)
Lemma fold_middle {A B} (f : A -> B -> A) l m r x : fold_left f (l ++ m :: r) x = fold_left f r (f (fold_left f l x) m).
Proof. rewrite fold_left_app. reflexivity. Qed.
Lemma mixes_changed after x s t : x < 2 ^ 64 ->
  Forall small_sig after -> s < 2 ^ 64 -> t < 2 ^ 64 -> s <> t ->
  sig_value (fold_left mix after (mix x (Some s))) = sig_value (fold_left mix after (mix x (Some t))) <->
  (exists u, In (Some u) after) /\ (N.lxor s t = e1 \/ N.lxor s t = e2 \/ N.lxor s t = e3).
Proof.
  intros Hx Ha Hs Ht Hne.
  assert (Hs' : small_sig (Some s)) by (intros ? E; injection E as <-; exact Hs).
  assert (Ht' : small_sig (Some t)) by (intros ? E; injection E as <-; exact Ht).
  pose proof (mix_lt x _ Hx Hs') as Hms. pose proof (mix_lt x _ Hx Ht') as Hmt.
  pose proof (mixes_lt after _ Hms Ha) as Fs. pose proof (mixes_lt after _ Hmt Ha) as Ft.
  pose proof (mixes_carry after _ _ Hms Hmt Ha) as M. rewrite mix_enter in M by assumption.
  pose proof (value_lxor _ _ Fs Ft) as V. rewrite M in V. clear M Hms Hmt Fs Ft Hs' Ht'.
  assert (L : N.lxor s t < 2 ^ 64) by (apply lxor_lt; assumption).
  assert (Hz : N.lxor s t <> 0) by (intros E; apply Hne, N.lxor_eq, E).
  assert (Q : carries carry after (enter (N.lxor s t)) = 0 <->
    (exists u, In (Some u) after) /\ (N.lxor s t = e1 \/ N.lxor s t = e2 \/ N.lxor s t = e3)).
  { rewrite carries_zero by apply enter_lt. rewrite carry_enter by exact L. split.
    - intros [H|(H1 & [H2|H2])]; [exfalso; revert H; apply enter_nz; assumption|contradiction|split; assumption].
    - intros (H1 & H2). right. split; [exact H1|right; exact H2]. }
  rewrite <- Q, <- V. clear Q V.
  generalize (sig_value (fold_left mix after (mix x (Some s)))) (sig_value (fold_left mix after (mix x (Some t)))).
  intros a b. split; [intros ->; apply N.lxor_nilpotent|apply N.lxor_eq].
Qed.
Theorem extend_changed start before after s t :
  Forall small_sig before -> Forall small_sig after -> s < 2 ^ 64 -> t < 2 ^ 64 -> s <> t ->
  extend_signature start (before ++ Some s :: after) = extend_signature start (before ++ Some t :: after) <->
  (exists u, In (Some u) after) /\ (N.lxor s t = e1 \/ N.lxor s t = e2 \/ N.lxor s t = e3).
Proof.
  intros Hb Ha Hs Ht Hne. rewrite !extend_mix. rewrite !(fold_middle mix before). apply mixes_changed; try assumption.
  apply mixes_lt; [apply value_init, start_value|exact Hb].
Qed.

Lemma extend_start z z' sigs : (z mod 2 ^ 64 = z' mod 2 ^ 64)%Z -> extend_signature z sigs = extend_signature z' sigs.
Proof. intros E. rewrite !extend_mix, E. reflexivity. Qed.
Lemma hash_list_is ts sigs : Forall legal_type ts -> Forall2 type_hash ts sigs -> sigs = map type_signature ts.
Proof.
  intros L H. induction H as [|t o ts os Ht H IH]; [reflexivity|]. apply Forall_cons_iff in L as (L1 & L2).
  cbn [map]. rewrite IH by exact L2. f_equal. apply (type_hash_fun t); [exact Ht|]. apply type_hash_is. exact L1.
Qed.
Lemma hash_list ts : Forall legal_type ts -> Forall2 type_hash ts (map type_signature ts).
Proof. intros L. induction L as [|t ts L1 L IH]; [constructor|]. cbn [map]. constructor; [apply type_hash_is; exact L1|exact IH]. Qed.
Lemma own_value d v : legal_definition d -> v = Z.to_N (dsdl_signature (d_name d) (d_body d) (d_override d) mod 2 ^ 64) ->
  own_signature (d_name d) (d_body d) (d_override d) v.
Proof. intros L ->. apply own_is; [apply L|apply legal_good; exact L]. Qed.
Lemma legal_fields d : legal_definition d -> Forall legal_type (map snd (all_fields (d_body d))).
Proof.
  intros (_ & Hp & _). apply Forall_map. unfold all_fields. apply Forall_forall. intros f Hf. apply in_flat_map in Hf as (p & Hp1 & Hf).
  rewrite Forall_forall in Hp. destruct (Hp p Hp1) as (_ & _ & H & _). rewrite Forall_forall in H. apply H. exact Hf.
Qed.
Lemma own_start d v : legal_definition d -> own_signature (d_name d) (d_body d) (d_override d) v ->
  (dsdl_signature (d_name d) (d_body d) (d_override d) mod 2 ^ 64 = Z.of_N v)%Z.
Proof.
  intros L H. pose proof (legal_good d L) as G. destruct L as (Hn & _).
  rewrite (own_fun _ _ _ _ _ H (own_is _ _ (d_override d) Hn G)).
  rewrite Z2N.id; [reflexivity|]. apply Z.mod_pos_bound. reflexivity.
Qed.
Theorem changed_iff d d' v before s s' after :
  legal_definition d -> legal_definition d' ->
  own_signature (d_name d) (d_body d) (d_override d) v -> own_signature (d_name d') (d_body d') (d_override d') v ->
  Forall2 type_hash (map snd (all_fields (d_body d))) (before ++ Some s :: after) ->
  Forall2 type_hash (map snd (all_fields (d_body d'))) (before ++ Some s' :: after) -> s <> s' ->
  data_type_signature d = data_type_signature d' <->
  (exists u, In (Some u) after) /\ (N.lxor s s' = e1 \/ N.lxor s s' = e2 \/ N.lxor s s' = e3).
Proof.
  intros L L' Ho Ho' Ht Ht' Hne. apply (own_start d v L) in Ho. apply (own_start d' v L') in Ho'.
  apply (hash_list_is _ _ (legal_fields d L)) in Ht. apply (hash_list_is _ _ (legal_fields d' L')) in Ht'.
  assert (S : Forall small_sig (before ++ Some s :: after)) by (rewrite Ht; apply Forall_map, Forall_forall; intros t _; apply type_signature_small).
  assert (S' : Forall small_sig (before ++ Some s' :: after)) by (rewrite Ht'; apply Forall_map, Forall_forall; intros t _; apply type_signature_small).
  rewrite all_fields_eq, map_map in Ht, Ht'.
  unfold data_type_signature. rewrite <- Ht, <- Ht'. rewrite (extend_start _ (Z.of_N v)), (extend_start (dsdl_signature (d_name d') _ _) (Z.of_N v)).
  - apply Forall_app in S as (Sb & Sa). apply Forall_cons_iff in Sa as (Ss & Sa). apply Forall_app in S' as (_ & Ss').
    apply Forall_inv in Ss'. apply extend_changed; try assumption; [apply Ss|apply Ss']; reflexivity.
  - rewrite Ho'. rewrite <- Ho'. symmetry. apply Z.mod_mod. discriminate.
  - rewrite Ho. rewrite <- Ho. symmetry. apply Z.mod_mod. discriminate.
Qed.
