(** The normalised text of a definition. *)
From Coq Require Import String.
From Verif.Base Require Import Prelude Bits.
From Verif.Model Require Import Types Slcan Crc Parser.
From Verif.Spec Require Import CrcSpec ParserSpec SignatureSpec.
From Verif.Proofs Require Import ParserText ParserFacts ParserNorm PathFacts.
Open Scope list_scope.
Open Scope N_scope.

(** ** Numerals *)
Lemma decimal_aux_numeral f n acc : n < 10 ^ N.of_nat f -> (0 < f)%nat ->
  exists ds, decimal_aux f n acc = ds ++ acc /\ numeral n ds.
Proof.
  revert n acc. induction f as [|f IH]; intros n acc Hn Hf; [lia|]. cbn [decimal_aux].
  assert (Hd : n mod 10 < 10) by lia.
  destruct (N.eqb_spec (n / 10) 0) as [E|E].
  - exists [decimal_digit (n mod 10)]. split; [reflexivity|]. replace (n mod 10) with n by lia.
    apply numeral_digit. lia.
  - destruct f as [|f]; [change (10 ^ N.of_nat 1) with 10 in Hn; lia|].
    destruct (IH (n / 10) (decimal_digit (n mod 10) :: acc)) as (ds & E1 & H); [|lia|].
    { replace (N.of_nat (S (S f))) with (N.succ (N.of_nat (S f))) in Hn by lia. rewrite N.pow_succ_r' in Hn.
      remember (10 ^ N.of_nat (S f)) as q. lia. }
    exists (ds ++ [decimal_digit (n mod 10)]). split; [rewrite E1, <- app_assoc; reflexivity|].
    replace n with (10 * (n / 10) + n mod 10) at 1 by lia. apply numeral_more; [lia|exact Hd|exact H].
Qed.
Lemma decimal_numeral n : numeral n (decimal n).
Proof.
  unfold decimal. destruct (decimal_aux_numeral (S (N.to_nat (N.size n))) n []) as (ds & E & H); [|lia|].
  - apply N.lt_le_trans with (2 ^ N.size n).
    + destruct (N.eq_dec n 0) as [->|Hn]; [reflexivity|]. rewrite N.size_log2 by exact Hn.
      apply N.log2_spec. lia.
    + transitivity (2 ^ N.of_nat (S (N.to_nat (N.size n)))).
      * apply N.pow_le_mono_r; lia.
      * apply N.pow_le_mono_l. lia.
  - rewrite E, app_nil_r. exact H.
Qed.
Lemma numeral_value n s : numeral n s -> n < 10 /\ s = [48 + n] \/
  10 <= n /\ exists r, numeral (n / 10) r /\ s = r ++ [48 + n mod 10].
Proof.
  intros H. destruct H as [d Hd|n d s Hn Hd H]; [left; auto|]. right. split; [lia|]. exists s.
  replace ((10 * n + d) / 10) with n by lia. replace ((10 * n + d) mod 10) with d by lia. auto.
Qed.
Lemma numeral_fun n s s' : numeral n s -> numeral n s' -> s = s'.
Proof.
  intros H. revert s'. induction H as [d Hd|n d s Hn Hd H IH]; intros s' H'; apply numeral_value in H' as [(A & B)|(A & r & B & C)]; try lia.
  - congruence.
  - replace ((10 * n + d) / 10) with n in B by lia. replace ((10 * n + d) mod 10) with d in C by lia.
    rewrite (IH r B). congruence.
Qed.
Lemma numeral_bytes n s : numeral n s -> byte_string s.
Proof.
  unfold byte_string. intros H. induction H as [d Hd|n d s Hn Hd H IH]; [constructor; [lia|constructor]|].
  apply Forall_app. split; [exact IH|]. constructor; [lia|constructor].
Qed.

(** ** Types *)
Lemma bytes_txt w : forallb (fun c => c <? 256) (txt w) = true -> byte_string (txt w).
Proof. intros H. apply Forall_forall. intros c Hc. rewrite forallb_forall in H. apply H in Hc. lia. Qed.
Lemma bytes_app a b : byte_string a -> byte_string b -> byte_string (a ++ b).
Proof. intros H1 H2. apply Forall_app. auto. Qed.
Ltac bytes_lit := apply bytes_txt; vm_compute; reflexivity.
Lemma wordy_bytes l : Forall (fun c => wordy c = true) l -> byte_string l.
Proof. apply Forall_impl. intros c. unfold wordy, name_char, is_lower, is_upper, is_digit. lia. Qed.
Lemma full_name_bytes nm : full_type_name nm -> byte_string nm.
Proof. intros H. apply wordy_bytes. apply full_name_chars. exact H. Qed.
Lemma mode_bytes cm c : mode_name cm c -> byte_string c.
Proof. intros []; bytes_lit. Qed.
Lemma sized_bytes k w : sized_name k w -> byte_string w.
Proof. intros []; bytes_lit. Qed.
Lemma mode_fun cm c c' : mode_name cm c -> mode_name cm c' -> c = c'.
Proof. intros [] H; inversion H; reflexivity. Qed.
Lemma sized_fun k w w' : sized_name k w -> sized_name k w' -> w = w'.
Proof. intros [] H; inversion H; reflexivity. Qed.

Lemma type_text_fun t s s' : type_text t s -> type_text t s' -> s = s'.
Proof.
  intros H. revert s'. induction H as [n cm c Hc|k n cm c w s Hc Hw Hs|n s Hs|et n e s He IH Hs|et n e s He IH Hs|nm u fs ov];
    intros s' H'.
  - inversion H' as [? ? c' Hc'|? ? ? ? ? ? ? Hw'| | | |]; subst; [rewrite (mode_fun _ _ _ Hc Hc'); reflexivity|inversion Hw'].
  - inversion H' as [? ? c' Hc'|? ? ? c' w' t Hc' Hw' Ht| | | |]; subst; [inversion Hw|].
    rewrite (mode_fun _ _ _ Hc Hc'), (sized_fun _ _ _ Hw Hw'), (numeral_fun _ _ _ Hs Ht). reflexivity.
  - inversion H' as [| |? t Ht| | |]; subst. rewrite (numeral_fun _ _ _ Hs Ht). reflexivity.
  - inversion H' as [| | |? n' e' t He' Ht E1 E2| |]; subst. assert (n' = n) by lia. subst.
    rewrite (IH _ He'), (numeral_fun _ _ _ Hs Ht). reflexivity.
  - inversion H' as [| | | |? n' e' t He' Ht E1 E2|]; subst. assert (n' = n) by lia. subst.
    rewrite (IH _ He'), (numeral_fun _ _ _ Hs Ht). reflexivity.
  - inversion H'. reflexivity.
Qed.
Lemma type_text_bytes t s : legal_type t -> type_text t s -> byte_string s.
Proof.
  intros L H. induction H as [n cm c Hc|k n cm c w s Hc Hw Hs|n s Hs|et n e s He IH Hs|et n e s He IH Hs|nm u fs ov].
  - apply bytes_app; [eapply mode_bytes; exact Hc|bytes_lit].
  - apply bytes_app; [eapply mode_bytes; exact Hc|]. apply bytes_app; [eapply sized_bytes; exact Hw|eapply numeral_bytes; exact Hs].
  - apply bytes_app; [bytes_lit|eapply numeral_bytes; exact Hs].
  - inversion L; subst. apply bytes_app; [auto|]. apply bytes_app; [bytes_lit|].
    apply bytes_app; [eapply numeral_bytes; exact Hs|bytes_lit].
  - inversion L; subst. apply bytes_app; [auto|]. apply bytes_app; [bytes_lit|].
    apply bytes_app; [eapply numeral_bytes; exact Hs|bytes_lit].
  - inversion L; subst. apply full_name_bytes. assumption.
Qed.
Lemma normalized_text t : legal_type t -> type_text t (normalized t).
Proof.
  intros L. induction L as [cm|k n cm Hk Hn|n cm Hn|n Hn|dyn et mx L IH Ha Hm|nm u fs ov Hnm Hns Hu Hf]; cbn [normalized].
  - pose proof (text_bool 1 cm) as K. destruct cm; exact (K _ ltac:(constructor)).
  - pose proof (decimal_numeral (N.of_nat n)) as Hd. rewrite app_assoc.
    destruct Hk as [-> | ->]; (apply text_sized; [destruct cm; constructor|constructor|exact Hd]).
  - pose proof (decimal_numeral (N.of_nat n)) as Hd. rewrite app_assoc.
    apply text_sized; [destruct cm; constructor|constructor|exact Hd].
  - apply text_void. apply decimal_numeral.
  - rewrite <- (Z2N.id mx) at 1 by lia. destruct dyn; constructor; auto using decimal_numeral.
  - constructor.
Qed.

(** ** Lines *)
Lemma void_dec t : is_void t \/ ~ is_void t.
Proof. destruct t; [right|left; eexists; reflexivity|right|right]; intros (n & H); discriminate. Qed.
Lemma field_text_line f : legal_type (snd f) -> normal_line f (field_text f).
Proof.
  destruct f as [nm t]. cbn [snd]. intros L. pose proof (normalized_text t L) as H. unfold field_text. cbn [fst snd].
  destruct (void_dec t) as [(n & ->)|Hv]; [apply line_padding; exact H|].
  destruct t as [k n cm|n|dyn et mx|m u fs ov]; [| |..]; try (exfalso; apply Hv; eexists; reflexivity);
    (destruct nm as [nm|]; [apply line_named|apply line_nameless]; assumption).
Qed.
Lemma field_line_fun f s s' : normal_line f s -> normal_line f s' -> s = s'.
Proof.
  intros H H'. destruct H as [nm n s H|nm t s Hv H|t s Hv H].
  - inversion H' as [? ? ? H2|? ? ? Hv2|? ? Hv2]; subst; [eapply type_text_fun; eassumption|..]; exfalso; apply Hv2; eexists; reflexivity.
  - inversion H' as [? ? ? H2|? ? s2 Hv2 H2|]; subst; [exfalso; apply Hv; eexists; reflexivity|].
    rewrite (type_text_fun _ _ _ H H2). reflexivity.
  - inversion H' as [? ? ? H2| |? s2 Hv2 H2]; subst; [exfalso; apply Hv; eexists; reflexivity|].
    rewrite (type_text_fun _ _ _ H H2). reflexivity.
Qed.
Lemma field_line_bytes f s : field_good f -> normal_line f s -> byte_string s.
Proof.
  intros ((L & _) & Hn) H. destruct H as [nm n s H|nm t s Hv H|t s Hv H]; cbn [fst snd] in *.
  - eapply type_text_bytes; eassumption.
  - apply bytes_app; [eapply type_text_bytes; eassumption|]. apply bytes_app; [bytes_lit|].
    apply wordy_bytes. apply attribute_name_wordy. apply Hn. reflexivity.
  - apply bytes_app; [eapply type_text_bytes; eassumption|bytes_lit].
Qed.

Definition good_part (p : part) : Prop := Forall field_good (p_fields p).
Lemma section_part p : good_part p -> part_lines p (section_lines p).
Proof.
  unfold good_part. destruct p as [fs cs u]. cbn [p_fields]. intros H.
  assert (H2 : Forall2 normal_line fs (map field_text fs)).
  { induction H as [|f fs ((L & _) & _) H IH]; constructor; [apply field_text_line; exact L|exact IH]. }
  unfold section_lines. cbn [p_union p_fields]. destruct u; cbn [mark_lines app]; constructor; exact H2.
Qed.
Lemma Forall2_fun {A B} (R : A -> B -> Prop) l m m' : (forall a b c, R a b -> R a c -> b = c) ->
  Forall2 R l m -> Forall2 R l m' -> m = m'.
Proof.
  intros HR H. revert m'. induction H as [|a b l m Hab H IH]; intros m' H'; inversion H'; subst; [reflexivity|].
  f_equal; [eapply HR; eassumption|apply IH; assumption].
Qed.
Lemma part_fun p ls ls' : part_lines p ls -> part_lines p ls' -> ls = ls'.
Proof.
  intros H H'. destruct H as [fs cs ls H|fs cs ls H]; inversion H' as [? ? ls2 H2|? ? ls2 H2]; subst;
    rewrite (Forall2_fun _ _ _ _ field_line_fun H H2); reflexivity.
Qed.
Lemma part_bytes p ls : good_part p -> part_lines p ls -> Forall byte_string ls.
Proof.
  unfold good_part. intros G H.
  assert (K : forall fs ls, Forall field_good fs -> Forall2 normal_line fs ls -> Forall byte_string ls).
  { clear. intros fs ls G H. induction H as [|f l fs ls Hf H IH]; [constructor|]. apply Forall_cons_iff in G as (G1 & G2).
    constructor; [eapply field_line_bytes; eassumption|auto]. }
  destruct H as [fs cs ls H|fs cs ls H]; cbn [p_fields] in G; [eauto|constructor; [bytes_lit|eauto]].
Qed.

(** ** Squeezing line feeds *)
Definition spaced (L : list (nat * text)) : text := flat_map (fun x => repeat LF (fst x) ++ snd x) L.
Definition inked (l : text) : Prop := l <> [] /\ Forall (fun c => lf c = false) l.
Lemma squeeze_pass f run a s : run = LF :: tl run -> Forall (fun c => lf c = false) a -> (length a + length s <= f)%nat ->
  squeeze f run (a ++ s) = a ++ squeeze (f - length a) run s.
Proof.
  intros Er. revert f. induction a as [|c a IH]; intros f H Hf; [cbn [app length]; rewrite Nat.sub_0_r; reflexivity|].
  apply Forall_cons_iff in H as (Hc & H). cbn [length] in Hf. destruct f as [|f]; [lia|]. cbn [app squeeze].
  assert (starts_with run (c :: a ++ s) = false) as ->.
  { rewrite Er. cbn [starts_with]. unfold lf in Hc. rewrite Hc. reflexivity. }
  rewrite IH by (assumption || lia). reflexivity.
Qed.
(** One gap of up to three line feeds before a text without any. *)
Lemma squeeze_gap n k c s f : (1 <= k <= 3)%nat -> (n = 2 \/ n = 3)%nat -> (n = 2 -> k <= 2)%nat -> lf c = false ->
  (k + S (length s) <= f)%nat ->
  squeeze f (repeat LF n) (repeat LF k ++ c :: s) =
  repeat LF (if Nat.eqb k n then 1 else k) ++ squeeze (f - (if Nat.eqb k n then 1 else k)) (repeat LF n) (c :: s).
Proof.
  intros Hk Hn Hkn Hc Hf. unfold lf in Hc.
  destruct f as [|f]; [lia|]. destruct f as [|f]; [lia|].
  destruct Hn as [-> | ->], k as [|[|[|[|k]]]]; try lia;
    cbn [repeat app Nat.eqb squeeze starts_with length skipn]; rewrite ?N.eqb_refl, ?Hc; cbn [andb Nat.sub];
    try reflexivity; cbn [squeeze starts_with]; rewrite ?Hc, ?Nat.sub_0_r; reflexivity.
Qed.

Definition narrowed (n : nat) (L : list (nat * text)) : list (nat * text) :=
  map (fun x => (if Nat.eqb (fst x) n then 1%nat else fst x, snd x)) L.
Lemma squeeze_spaced n L : (n = 2 \/ n = 3)%nat ->
  Forall (fun x => (1 <= fst x <= n)%nat /\ inked (snd x)) L -> forall x f,
  Forall (fun c => lf c = false) x -> (length x + length (spaced L) <= f)%nat ->
  squeeze f (repeat LF n) (x ++ spaced L) = x ++ spaced (narrowed n L).
Proof.
  intros Hn H. assert (Er : repeat LF n = LF :: tl (repeat LF n)) by (destruct Hn as [-> | ->]; reflexivity).
  induction H as [|(k & l) L (Hk & Hne & Hl) H IH]; intros x f Hx Hf; rewrite squeeze_pass by assumption; f_equal.
  - cbn [spaced flat_map narrowed map]. destruct (f - length x)%nat; reflexivity.
  - cbn [fst snd] in *. change (spaced ((k, l) :: L)) with ((repeat LF k ++ l) ++ spaced L) in *.
    rewrite !app_length, repeat_length in Hf. destruct l as [|c r]; [congruence|]. rewrite <- app_assoc. cbn [app length] in *.
    change (c :: r ++ spaced L) with (c :: (r ++ spaced L)).
    rewrite squeeze_gap; [|lia|exact Hn|lia|apply Forall_inv in Hl; exact Hl|rewrite app_length; lia].
    change (spaced (narrowed n ((k, c :: r) :: L))) with ((repeat LF (if Nat.eqb k n then 1 else k) ++ c :: r) ++ spaced (narrowed n L)).
    rewrite <- app_assoc. f_equal. change (c :: r ++ spaced L) with ((c :: r) ++ spaced L).
    rewrite IH; [reflexivity|exact Hl|]. cbn [length]. destruct (Nat.eqb k n); lia.
Qed.
Lemma replace_spaced x L : Forall (fun c => lf c = false) x -> Forall (fun y => (1 <= fst y <= 3)%nat /\ inked (snd y)) L ->
  replace_run 2 (replace_run 3 (x ++ spaced L)) = text_of x (map snd L).
Proof.
  intros Hx HL. unfold replace_run.
  rewrite (squeeze_spaced 3 L) by (auto; rewrite app_length; auto).
  rewrite (squeeze_spaced 2 (narrowed 3 L)); [|auto| |exact Hx|rewrite app_length; auto].
  - unfold text_of. f_equal. clear Hx. induction HL as [|(k & l) L (Hk & _) HL IH]; [reflexivity|]. cbn [fst snd] in Hk.
    cbn [narrowed map spaced flat_map fst snd] in *. unfold spaced in IH. unfold narrowed in IH. rewrite IH. f_equal.
    destruct k as [|[|[|[|k]]]]; try lia; reflexivity.
  - clear Hx. induction HL as [|(k & l) L (Hk & Hl) HL IH]; [constructor|]. cbn [narrowed map fst snd] in *.
    constructor; [|exact IH]. cbn [fst snd]. split; [|exact Hl]. destruct k as [|[|[|[|k]]]]; cbn [Nat.eqb]; lia.
Qed.

(** ** The text before squeezing *)
Lemma spaced_app A B : spaced (A ++ B) = spaced A ++ spaced B.
Proof. apply flat_map_app. Qed.
Lemma adjoin_spaced fs : fs <> [] -> LF :: adjoin fs = spaced (map (fun f => (1%nat, field_text f)) fs) ++ [LF].
Proof.
  intros Hne. unfold adjoin. destruct fs as [|f fs]; [congruence|]. cbn [map]. rewrite join_flat.
  assert (E : flat_map (fun w => LF :: w) (map field_text fs) = spaced (map (fun f => (1%nat, field_text f)) fs)).
  { clear. induction fs as [|g fs IH]; [reflexivity|]. cbn [map flat_map]. rewrite IH. reflexivity. }
  rewrite E. reflexivity.
Qed.
Lemma section_spaced p : good_part p -> exists L j,
  LF :: union_mark (p_union p) ++ adjoin (p_fields p) = spaced L ++ repeat LF j /\ map snd L = section_lines p /\
  Forall (fun y => (1 <= fst y <= 3)%nat /\ clean (snd y)) L /\ (1 <= j <= 2)%nat.
Proof.
  unfold good_part, section_lines. destruct p as [fs cs u]. cbn [p_fields p_union]. intros G.
  set (LF1 := map (fun f => (1%nat, field_text f)) fs).
  assert (H1 : map snd LF1 = map field_text fs) by (subst LF1; rewrite map_map; reflexivity).
  assert (H2 : Forall (fun y => (1 <= fst y <= 3)%nat /\ clean (snd y)) LF1).
  { subst LF1. apply Forall_map. eapply Forall_impl; [|exact G]. intros f Hf. cbn [fst snd]. split; [lia|].
    apply line_like_clean. apply ParserNorm.field_line. exact Hf. }
  assert (H3 : exists j, LF :: adjoin fs = spaced LF1 ++ repeat LF j /\ (1 <= j <= 2)%nat).
  { destruct fs as [|f fs]; [exists 2%nat; split; [reflexivity|lia]|]. exists 1%nat. split; [|lia].
    apply adjoin_spaced. discriminate. }
  destruct H3 as (j & H3 & Hj). destruct u; cbn [union_mark mark_lines].
  - exists ((2%nat, txt "@union") :: LF1), j. split; [|split; [cbn [map snd]; rewrite H1; reflexivity|split; [|exact Hj]]].
    + change (spaced ((2%nat, txt "@union") :: LF1)) with ((LF :: LF :: txt "@union") ++ spaced LF1).
      rewrite <- (app_assoc _ (spaced LF1) (repeat LF j)). unfold text in *. rewrite <- H3. reflexivity.
    + constructor; [|exact H2]. cbn [fst snd]. split; [lia|apply union_clean].
  - exists LF1, j. auto.
Qed.
Lemma last_solid x L : clean x -> Forall (fun y : nat * text => (1 <= fst y <= 3)%nat /\ clean (snd y)) L ->
  solid is_ws (x ++ spaced L).
Proof.
  intros (Hx & Hx0 & Hx1 & Hx2) HL. split.
  - destruct x as [|c r]; [congruence|]. exists c, (r ++ spaced L). split; [reflexivity|]. eapply Hx1. reflexivity.
  - assert (K : forall a y, clean y -> exists z q, a ++ y = q ++ [z] /\ is_ws z = false).
    { clear. intros a y (Hy & _ & _ & H2). destruct (exists_last Hy) as (q & z & ->). exists z, (a ++ q). split; [apply app_assoc|].
      eapply H2. rewrite rev_app_distr. reflexivity. }
    destruct L as [|(k & l) L] using rev_ind.
    + cbn [spaced flat_map]. rewrite app_nil_r. apply (K []). split; [exact Hx|]. split; [exact Hx0|]. split; assumption.
    + apply Forall_app in HL as (_ & HL). apply Forall_inv in HL as (_ & Hl). cbn [snd] in Hl.
      rewrite spaced_app, app_assoc. cbn [spaced flat_map fst snd]. rewrite app_nil_r, app_assoc. apply K. exact Hl.
Qed.
Lemma repeat_ws j : Forall (fun c => is_ws c = true) (repeat LF j).
Proof. induction j; constructor; [reflexivity|assumption]. Qed.
Lemma strip_spaced x L j : clean x -> Forall (fun y => (1 <= fst y <= 3)%nat /\ clean (snd y)) L ->
  strip is_ws (x ++ spaced L ++ repeat LF j) = x ++ spaced L.
Proof.
  intros Hx HL. rewrite app_assoc. apply (strip_around is_ws []); [apply repeat_ws|]. right. apply last_solid; assumption.
Qed.
Lemma clean_inked L : Forall (fun y : nat * text => (1 <= fst y <= 3)%nat /\ clean (snd y)) L ->
  Forall (fun y => (1 <= fst y <= 3)%nat /\ inked (snd y)) L.
Proof. apply Forall_impl. intros y (H1 & H2 & H3 & _). split; [exact H1|split; assumption]. Qed.

Theorem source_text name b : full_type_name name -> Forall good_part (parts b) ->
  source_definition name b = text_of name (body_lines b).
Proof.
  intros Hn Hb. assert (Hname : clean name) by (apply line_like_clean, full_name_line; exact Hn).
  unfold source_definition. destruct b as [p|rq rs]; cbn [parts body_lines] in *.
  - apply Forall_inv in Hb. destruct (section_spaced p Hb) as (L & j & E & El & HL & _).
    cbn [app]. cbv zeta. cbn [app]. rewrite E, strip_spaced by assumption.
    rewrite replace_spaced; [rewrite El; reflexivity|apply Hname|apply clean_inked; exact HL].
  - apply Forall_cons_iff in Hb as (Hq & Hb). apply Forall_inv in Hb.
    destruct (section_spaced rq Hq) as (L & j & E & El & HL & Hj).
    destruct (section_spaced rs Hb) as (L' & j' & E' & El' & HL' & _).
    cbv zeta. cbn [app].
    set (A := union_mark (p_union rq)) in *. set (B := adjoin (p_fields rq)) in *.
    set (C := union_mark (p_union rs) ++ adjoin (p_fields rs)) in *.
    assert (Et : name ++ LF :: A ++ B ++ LF :: txt "---" ++ LF :: C =
                 name ++ spaced (L ++ (S j, txt "---") :: L') ++ repeat LF j').
    { f_equal. rewrite spaced_app. change (spaced ((S j, txt "---") :: L')) with ((repeat LF (S j) ++ txt "---") ++ spaced L').
      rewrite <- !app_assoc, <- E'. rewrite (app_assoc A B), app_comm_cons, E, <- app_assoc. f_equal.
      change (LF :: txt "---" ++ LF :: C) with ([LF] ++ (txt "---" ++ LF :: C)). rewrite app_assoc, <- repeat_cons. reflexivity. }
    rewrite Et. assert (HL2 : Forall (fun y => (1 <= fst y <= 3)%nat /\ clean (snd y)) (L ++ (S j, txt "---") :: L')).
    { apply Forall_app. split; [exact HL|]. constructor; [|exact HL']. cbn [fst snd]. split; [lia|apply dashes_clean]. }
    rewrite strip_spaced by assumption. rewrite replace_spaced; [|apply Hname|apply clean_inked; exact HL2].
    rewrite map_app. cbn [map snd]. rewrite El, El'. reflexivity.
Qed.

Theorem source_is_text name b : full_type_name name -> Forall good_part (parts b) ->
  definition_text name b (source_definition name b).
Proof.
  intros Hn Hb. rewrite source_text by assumption. destruct b as [p|rq rs]; cbn [parts] in Hb.
  - apply Forall_inv in Hb. constructor. apply section_part. exact Hb.
  - apply Forall_cons_iff in Hb as (Hq & Hb). apply Forall_inv in Hb. apply service_text; apply section_part; assumption.
Qed.
Lemma definition_text_fun name b s s' : definition_text name b s -> definition_text name b s' -> s = s'.
Proof.
  intros H H'. destruct H as [p ls H|rq rs ls ls' H1 H2].
  - inversion H' as [? ls2 H2|]; subst. rewrite (part_fun _ _ _ H H2). reflexivity.
  - inversion H' as [|? ? ls3 ls4 H3 H4]; subst. rewrite (part_fun _ _ _ H1 H3), (part_fun _ _ _ H2 H4). reflexivity.
Qed.
Lemma text_of_bytes x ls : byte_string x -> Forall byte_string ls -> byte_string (text_of x ls).
Proof.
  intros Hx H. apply bytes_app; [exact Hx|]. induction H as [|l ls Hl H IH]; [constructor|].
  cbn [flat_map]. apply bytes_app; [constructor; [lia|exact Hl]|exact IH].
Qed.
Lemma definition_text_bytes name b s : full_type_name name -> Forall good_part (parts b) ->
  definition_text name b s -> byte_string s.
Proof.
  intros Hn Hb H. destruct H as [p ls H|rq rs ls ls' H1 H2]; cbn [parts] in Hb; (apply text_of_bytes; [apply full_name_bytes; exact Hn|]).
  - apply Forall_inv in Hb. eapply part_bytes; eassumption.
  - apply Forall_cons_iff in Hb as (Hq & Hb). apply Forall_inv in Hb. apply Forall_app.
    split; [exact (part_bytes _ _ Hq H1)|]. constructor; [bytes_lit|exact (part_bytes _ _ Hb H2)].
Qed.
