(** The text of a frame. *)
From Verif.Base Require Import Prelude.
From Verif.Model Require Import CanFrame Slcan FrameText.
From Verif.Spec Require Import FrameTextSpec.
Local Open Scope N_scope.

Lemma fixed_length u w : forall n, length (hex_fixed u w n) = w.
Proof. induction w as [|w IH]; intros n; [reflexivity|]. cbn [hex_fixed]. rewrite app_length, IH. cbn. lia. Qed.
Lemma low_digit d : d < 16 -> 48 <= hex_digit false d <= 57 \/ 97 <= hex_digit false d <= 102.
Proof. unfold hex_digit. intros H. destruct (N.ltb_spec d 10); lia. Qed.
Lemma fixed_digits w : forall n, Forall (fun c => 48 <= c <= 57 \/ 97 <= c <= 102) (hex_fixed false w n).
Proof.
  induction w as [|w IH]; intros n; [constructor|]. cbn [hex_fixed]. apply Forall_app. split; [apply IH|]. constructor; [|constructor].
  apply low_digit. apply N.mod_lt. discriminate.
Qed.
Lemma fixed_inj w : forall n m, n < 16 ^ N.of_nat w -> m < 16 ^ N.of_nat w -> hex_fixed false w n = hex_fixed false w m -> n = m.
Proof.
  induction w as [|w IH]; intros n m Hn Hm H; [cbn in Hn, Hm; lia|]. cbn [hex_fixed] in H. apply app_inj_tail in H as (H & D).
  rewrite Nat2N.inj_succ, N.pow_succ_r' in Hn, Hm. apply IH in H; [|apply N.div_lt_upper_bound; lia|apply N.div_lt_upper_bound; lia].
  assert (E : n mod 16 = m mod 16).
  { assert (A := N.mod_lt n 16 ltac:(discriminate)). assert (B := N.mod_lt m 16 ltac:(discriminate)). revert D A B. generalize (n mod 16), (m mod 16). intros x y.
    unfold hex_digit. intros D A B. destruct (N.ltb_spec x 10), (N.ltb_spec y 10); lia. }
  rewrite (N.div_mod n 16), (N.div_mod m 16) by discriminate. rewrite H, E. reflexivity.
Qed.
Lemma low_fixed w n : (1 <= w)%nat -> n < 16 ^ N.of_nat w -> hex_low w n = hex_fixed false w n.
Proof.
  intros W H. unfold hex_low. f_equal. apply Nat.max_l. destruct (N.eq_dec n 0) as [->|N0]; [cbn; lia|].
  assert (L : N.log2 n < 4 * N.of_nat w) by (apply N.log2_lt_pow2; [lia|]; rewrite N.pow_mul_r; exact H).
  assert (N.log2 n / 4 < N.of_nat w) by (apply N.div_lt_upper_bound; lia). lia.
Qed.

(** *** The data *)
Notation bytes d := (Forall (fun b => b < 256) d).
Notation joined d := (join (map (hex_low 2) d)).
Lemma byte_low b : b < 256 -> hex_low 2 b = [hex_digit false (b / 16 mod 16); hex_digit false (b mod 16)].
Proof. intros H. rewrite low_fixed by (cbn; lia). reflexivity. Qed.
Lemma join_length d : bytes d -> length (joined d) = (3 * length d - 1)%nat.
Proof.
  induction d as [|x d IH]; intros F; [reflexivity|]. inversion F as [|? ? Hx Hd]; subst. cbn [map]. rewrite byte_low by exact Hx.
  destruct d as [|y d]; [reflexivity|]. cbn [map] in *. change (join (?a :: ?b :: ?r)) with (a ++ 32 :: join (b :: r)). rewrite app_length. cbn [length]. rewrite (IH Hd). cbn [length]. lia.
Qed.
Lemma join_head x d : bytes (x :: d) -> exists c r, joined (x :: d) = c :: r /\ c <> 32.
Proof.
  intros F. inversion F as [|? ? Hx _]; subst. cbn [map]. rewrite byte_low by exact Hx. pose proof (low_digit (x / 16 mod 16) ltac:(apply N.mod_lt; discriminate)) as D.
  destruct (map _ d); cbn [join app]; eexists; eexists; (split; [reflexivity|lia]).
Qed.
Lemma join_blank x d p q r : bytes (x :: d) -> joined (x :: d) ++ r = repeat 32 p ++ q -> q = [] -> False.
Proof.
  intros F H ->. destruct (join_head x d F) as (c & l & E & N). rewrite E, app_nil_r in H. destruct p; [discriminate|]. injection H as -> _. exact (N eq_refl).
Qed.
Lemma join_inj d : forall d' p p', bytes d -> bytes d' -> joined d ++ repeat 32 p = joined d' ++ repeat 32 p' -> d = d'.
Proof.
  induction d as [|x d IH]; intros d' p p' F F' H.
  - destruct d' as [|y d']; [reflexivity|exfalso]. apply (join_blank y d' p [] (repeat 32 p') F'); [|reflexivity]. rewrite app_nil_r. symmetry. exact H.
  - destruct d' as [|y d']; [exfalso; apply (join_blank x d p' [] (repeat 32 p) F); [rewrite app_nil_r; exact H|reflexivity]|].
    inversion F as [|? ? Hx Hd]; subst. inversion F' as [|? ? Hy Hd']; subst.
    assert (Q : hex_low 2 x = hex_low 2 y /\ (match d with [] => [] | _ => 32 :: joined d end) ++ repeat 32 p = (match d' with [] => [] | _ => 32 :: joined d' end) ++ repeat 32 p').
    { cbn [map] in H. rewrite !(byte_low x Hx), !(byte_low y Hy) in *. destruct d, d'; cbn [map join app] in H |- *; injection H as A1 A2 H; (split; [congruence|first [exact H|exact (f_equal (cons 32) H)]]). }
    destruct Q as (Q & R). rewrite !low_fixed in Q by (cbn; lia). apply fixed_inj in Q; [|cbn; lia|cbn; lia]. subst y. f_equal.
    destruct d as [|a d], d' as [|b d']; try reflexivity.
    + exfalso. cbn [app] in R. destruct p as [|p]; [discriminate|]. injection R as R. apply (join_blank b d' p [] (repeat 32 p') Hd'); [rewrite app_nil_r; symmetry; exact R|reflexivity].
    + exfalso. cbn [app] in R. destruct p' as [|p']; [discriminate|]. injection R as R. apply (join_blank a d p' [] (repeat 32 p) Hd); [rewrite app_nil_r; exact R|reflexivity].
    + cbn [app] in R. injection R as R. exact (IH (b :: d') p p' Hd Hd' R).
Qed.

(** *** The identifier *)
Lemma id_shape f : real_frame f ->
  id_text f = (if c_ext f then (if c_fd f then [70; 68; 32] else [32; 32; 32]) ++ hex_fixed false 8 (c_id f)
               else (if c_fd f then [32; 32; 32; 32; 32; 70; 68; 32] else [32; 32; 32; 32; 32; 32; 32; 32]) ++ hex_fixed false 3 (c_id f)).
Proof.
  intros (Hi & _). unfold id_text, rjust. destruct (c_ext f).
  - rewrite low_fixed by (cbn; lia). rewrite app_length. cbn [length]. rewrite fixed_length. destruct (c_fd f); reflexivity.
  - rewrite low_fixed by (cbn; lia). rewrite app_length. cbn [length]. rewrite fixed_length. destruct (c_fd f); reflexivity.
Qed.
Lemma id_length f : real_frame f -> length (id_text f) = 11%nat.
Proof. intros R. rewrite (id_shape f R). destruct (c_ext f), (c_fd f); rewrite app_length, fixed_length; reflexivity. Qed.
Lemma head_digit w n : exists c r, hex_fixed false (S w) n = c :: r /\ 48 <= c <= 102 /\ c <> 70.
Proof.
  pose proof (fixed_digits (S w) n) as D. pose proof (fixed_length false (S w) n) as L. destruct (hex_fixed false (S w) n) as [|c r]; [discriminate|].
  inversion D; subst. exists c, r. split; [reflexivity|lia].
Qed.
Lemma id_inj f g : real_frame f -> real_frame g -> id_text f = id_text g -> c_ext f = c_ext g /\ c_fd f = c_fd g /\ c_id f = c_id g.
Proof.
  intros Rf Rg H. rewrite (id_shape f Rf), (id_shape g Rg) in H. destruct Rf as (Hf & _), Rg as (Hg & _).
  destruct (head_digit 7 (c_id f)) as (a & ra & Ea & Da), (head_digit 7 (c_id g)) as (b & rb & Eb & Db).
  destruct (c_ext f), (c_ext g).
  - assert (E : c_fd f = c_fd g) by (destruct (c_fd f), (c_fd g); try reflexivity; discriminate). rewrite E in H. apply app_inv_head in H.
    apply fixed_inj in H; [auto|cbn; lia|cbn; lia].
  - exfalso. rewrite Ea in H. destruct (c_fd f), (c_fd g); try discriminate; cbn [app] in H; injection H as X _; lia.
  - exfalso. rewrite Eb in H. destruct (c_fd f), (c_fd g); try discriminate; cbn [app] in H; injection H as X _; lia.
  - assert (E : c_fd f = c_fd g) by (destruct (c_fd f), (c_fd g); try reflexivity; discriminate). rewrite E in H. apply app_inv_head in H.
    apply fixed_inj in H; [auto|cbn; lia|cbn; lia].
Qed.

Lemma app_cut {A} (a b c d : list A) : length a = length c -> a ++ b = c ++ d -> a = c /\ b = d.
Proof.
  revert c. induction a as [|x a IH]; intros [|y c] L H; try discriminate; [auto|]. injection H as -> H. injection L as L. destruct (IH c L H) as (-> & ->). auto.
Qed.
Lemma hex_length f : real_frame f -> length (hex_text f) = (3 * (if c_fd f then 64 else 8))%nat.
Proof. intros (_ & B & L). unfold hex_text, ljust. rewrite app_length, repeat_length, (join_length _ B). destruct (c_fd f); lia. Qed.
Lemma text_tells mono real f g : real_frame f -> real_frame g -> frame_text mono real f = frame_text mono real g ->
  c_id f = c_id g /\ c_data f = c_data g /\ c_ext f = c_ext g /\ c_fd f = c_fd g.
Proof.
  intros Rf Rg H. unfold frame_text in H. apply app_inv_head in H. injection H as H. apply app_inv_head in H. injection H as H.
  apply app_cut in H as (I & H); [|rewrite !id_length by assumption; reflexivity]. apply (id_inj f g Rf Rg) in I as (Ex & Fd & Id).
  injection H as H. apply app_cut in H as (X & _); [|rewrite !hex_length, Fd by assumption; reflexivity].
  repeat split; auto. unfold hex_text, ljust in X. apply join_inj in X; [exact X|apply Rf|apply Rg].
Qed.

(** *** One line *)
Lemma printed_digits w n : Forall printable (hex_low w n).
Proof. unfold hex_low. eapply Forall_impl; [|apply fixed_digits]. unfold printable. cbv beta. intros; lia. Qed.
Lemma blanks n : Forall printable (repeat 32 n).
Proof. apply Forall_forall. intros x H. apply repeat_spec in H as ->. unfold printable. lia. Qed.
Lemma printed_join l : Forall (Forall printable) l -> Forall printable (join l).
Proof.
  induction 1 as [|x l Hx Hl IH]; [constructor|]. destruct l; [exact Hx|]. change (Forall printable (x ++ 32 :: join (l :: l0))).
  apply Forall_app. split; [exact Hx|]. constructor; [unfold printable; lia|exact IH].
Qed.
Lemma text_line mono real f : Forall printable mono -> Forall printable real -> Forall printable (frame_text mono real f).
Proof.
  intros M R. unfold frame_text, id_text, rjust, hex_text, ljust.
  assert (P : forall c, 32 <= c <= 126 -> printable c) by (unfold printable; auto).
  repeat first [apply Forall_app; split|apply Forall_cons; [apply P; lia|]|apply Forall_nil|apply blanks|apply printed_digits|exact M|exact R].
  - destruct (c_fd f); repeat constructor; lia.
  - apply printed_join. apply Forall_forall. intros x H. apply in_map_iff in H as (b & <- & _). apply printed_digits.
  - unfold ascii_text. apply Forall_forall. intros x H. apply in_map_iff in H as (b & <- & _). destruct ((32 <=? b) && (b <=? 126)) eqn:E; unfold printable; lia.
Qed.
Lemma text_shown mono real f : exists before chars, frame_text mono real f = before ++ 39 :: chars ++ [39] /\ Forall2 shown_as (c_data f) chars.
Proof.
  exists (mono ++ 32 :: real ++ [32; 32] ++ id_text f ++ [32; 32] ++ hex_text f ++ [32; 32]), (ascii_text f). split.
  - unfold frame_text. rewrite <- !app_assoc. cbn [app]. do 2 f_equal. rewrite <- !app_assoc. cbn [app]. rewrite <- ?app_assoc. cbn [app]. rewrite <- ?app_assoc. reflexivity.
  - unfold ascii_text. induction (c_data f) as [|b d IH]; constructor; [|exact IH]. unfold shown_as, printable. destruct ((32 <=? b) && (b <=? 126)) eqn:E; lia.
Qed.
