From Verif.Base Require Import Prelude Bits.
From Verif.Model Require Import BitCodec Types Codec.
From Verif.Spec Require Import CodecSpec.
From Verif.Proofs Require Import BitCodecFacts CodecFacts DecodeFacts TruncFacts.

(** * Reading of a stream that may be too short

    A reader that succeeded on [p] lacked [k] bits, all of them void, and
    gives the same on every longer stream. *)
Definition lax {A} (u : bits -> res (A * bits)) (mask : A -> list bool) : Prop :=
  forall p w r, u p = Ok (w, r) -> exists k m,
    (k = 0 \/ r = []) /\
    (forall q, k <= length q -> u (p ++ q) = Ok (w, r ++ skipn k q)) /\
    mask w = m ++ repeat true k /\ length m + length r = length p.

Lemma skipn_plus {A} a b (l : list A) : skipn b (skipn a l) = skipn (a + b) l.
Proof.
  revert l. induction a as [|a IH]; intros [|x l]; cbn; auto.
  destruct b; reflexivity.
Qed.

Lemma repeat_plus {A} (x : A) a b : repeat x a ++ repeat x b = repeat x (a + b).
Proof. rewrite repeat_app. reflexivity. Qed.

(** One reader after the other. *)
Lemma lax_seq {A B C} (u1 : bits -> res (A * bits)) (u2 : bits -> res (B * bits))
    (f : A -> B -> C) m1 m2 (mask : C -> list bool) :
  lax u1 m1 -> lax u2 m2 -> (forall a b, mask (f a b) = m1 a ++ m2 b) ->
  lax (fun s => '(a, s1) <- u1 s ;; '(b, s2) <- u2 s1 ;; Ok (f a b, s2)) mask.
Proof.
  intros H1 H2 Hm p w r H.
  apply bind_ok in H as ([a s1] & E1 & H). apply bind_ok in H as ([b s2] & E2 & H).
  injection H as <- <-.
  destruct (H1 _ _ _ E1) as (k1 & l1 & D1 & F1 & M1 & L1).
  destruct (H2 _ _ _ E2) as (k2 & l2 & D2 & F2 & M2 & L2).
  destruct (Nat.eq_dec k1 0) as [->|N1].
  - exists k2, (l1 ++ l2). split; [exact D2|]. split; [|split].
    + intros q Hq. rewrite F1 by lia. cbn [bind skipn]. rewrite F2 by exact Hq. reflexivity.
    + rewrite Hm, M1, M2. cbn [repeat]. rewrite app_nil_r, app_assoc. reflexivity.
    + rewrite app_length. lia.
  - destruct D1 as [->| ->]; [congruence|].
    cbn [length] in L2. assert (l2 = []) as -> by (destruct l2; [reflexivity|cbn in L2; lia]).
    assert (s2 = []) as -> by (destruct s2; [reflexivity|cbn in L2; lia]).
    exists (k1 + k2), l1. split; [auto|]. split; [|split].
    + intros q Hq. rewrite F1 by lia. cbn [bind app].
      specialize (F2 (skipn k1 q)). cbn [app] in F2. rewrite F2 by (rewrite skipn_length; lia).
      cbn [bind]. rewrite skipn_plus. reflexivity.
    + rewrite Hm, M1, M2. cbn [app]. rewrite <- app_assoc, repeat_plus. reflexivity.
    + lia.
Qed.

Lemma lax_ext {A} (u u' : bits -> res (A * bits)) mask :
  (forall s, u s = u' s) -> lax u mask -> lax u' mask.
Proof.
  intros He H p w r E. rewrite <- He in E. destruct (H _ _ _ E) as (k & m & D & F & M & L).
  exists k, m. repeat split; auto. intros q Hq. rewrite <- He. auto.
Qed.

Lemma lax_map {A B} (u : bits -> res (A * bits)) (f : A -> B) m (mask : B -> list bool) :
  lax u m -> (forall a, mask (f a) = m a) ->
  lax (fun s => '(a, s1) <- u s ;; Ok (f a, s1)) mask.
Proof.
  intros H Hm p w r E. apply bind_ok in E as ([a s1] & E1 & E). injection E as <- <-.
  destruct (H _ _ _ E1) as (k & l & D & F & M & L). exists k, l. repeat split; auto.
  - intros q Hq. rewrite F by exact Hq. reflexivity.
  - rewrite Hm. exact M.
Qed.

Lemma lax_n u n m : lax (u false) m ->
  lax (unpack_n u n false) (fun vs : list value => concat (map m vs)).
Proof.
  intros Hu. induction n as [|n IH].
  - intros p w r H. injection H as <- <-. exists 0, []. split; [auto|].
    split; [reflexivity|]. split; [reflexivity|]. reflexivity.
  - apply (lax_ext (fun s => '(a, s1) <- u false s ;; '(b, s2) <- unpack_n u n false s1 ;;
             Ok (a :: b, s2))); [reflexivity|].
    eapply lax_seq; [exact Hu|exact IH|]. reflexivity.
Qed.

Lemma lax_struct fs : Forall (fun t => lax (unpack t false) (void_mask t)) fs ->
  lax (unpack_struct (map unpack fs) false)
    (fun vs => concat (zip_mask (map void_mask fs) vs)).
Proof.
  induction 1 as [|f fs Hf Hfs IH].
  - intros p w r H. injection H as <- <-. exists 0, []. split; [auto|].
    split; [reflexivity|]. split; [reflexivity|]. reflexivity.
  - apply (lax_ext (fun s => '(a, s1) <- unpack f false s ;;
             '(b, s2) <- unpack_struct (map unpack fs) false s1 ;; Ok (a :: b, s2)));
      [reflexivity|].
    eapply lax_seq; [exact Hf|exact IH|]. reflexivity.
Qed.

(** Only hollow types can be read from nothing. *)
Lemma hollow_from_nothing t : wf_type t -> forall w r,
  unpack t false [] = Ok (w, r) -> r = [] /\ hollow t.
Proof.
  induction t as [k n cm|n|dyn et mx IH|u fs IH] using dtype_ind'; intros Hwf w r H.
  - change (unpack (TPrim k n cm) false [])
      with ('(b, s') <- base_unpack [] n ;; Ok (VPrim b, s')) in H.
    apply bind_ok in H as ([b s'] & H0 & H). cbn in Hwf.
    apply base_unpack_inv in H0 as (_ & Hge & _); [|exact Hwf]. cbn in Hge. lia.
  - change (unpack (TVoid n) false []) with (@Ok (value * bits) (VVoid, skipn n [])) in H.
    injection H as <- <-. rewrite skipn_nil. split; [reflexivity|exact I].
  - destruct Hwf as (He & _ & Hm). specialize (IH He). rewrite unpack_arr_eq in H.
    destruct dyn; cbn [negb andb] in H; cbn zeta in H.
    + apply bind_ok in H as (a & H0 & _).
      apply (be_from_le_mono _ []) in H0 as [H0 _]. rewrite firstn_nil in H0. cbn in H0.
      pose proof (array_len_bits_pos mx Hm). lia.
    + apply bind_ok in H as ([vs s'] & H1 & H). injection H as <- <-.
      assert (forall n vs s', unpack_n (unpack et) n false [] = Ok (vs, s') ->
        s' = [] /\ (1 <= n -> hollow et)) as G.
      { clear H1. intros n0. induction n0 as [|n0 IHn]; intros vs0 s0 H0;
          cbn [unpack_n andb] in H0.
        - injection H0 as <- <-. split; [reflexivity|lia].
        - apply bind_ok in H0 as ([v s1] & E1 & H0).
          apply bind_ok in H0 as ([vs1 s2] & E2 & H0). injection H0 as <- <-.
          destruct (IH _ _ E1) as [-> Hh]. destruct (IHn _ _ E2) as [-> _]. auto. }
      destruct (G _ _ _ H1) as [-> Hh]. cbn [hollow]. auto.
  - apply wf_fields in Hwf as Hfs. rewrite unpack_comp_eq in H. destruct u.
    + cbn zeta in H. rewrite firstn_nil in H. discriminate.
    + apply bind_ok in H as ([vs s'] & H0 & H). injection H as <- <-.
      clear Hwf. cbn [hollow].
      assert (s' = [] /\ fold_right (fun f acc => hollow f /\ acc) True fs) as [-> Hh].
      { revert vs s' H0. induction fs as [|f fs IHfs]; intros vs s' H0;
          cbn [map unpack_struct andb] in H0.
        - injection H0 as <- <-. split; [reflexivity|exact I].
        - apply bind_ok in H0 as ([v s1] & E1 & H0).
          apply bind_ok in H0 as ([vs1 s2] & E2 & H0). injection H0 as <- <-.
          inversion IH; inversion Hfs; subst.
          destruct (H1 ltac:(assumption) _ _ E1) as [-> Hh].
          destruct (IHfs ltac:(assumption) ltac:(assumption) _ _ E2) as [-> Hh'].
          cbn. auto. }
      auto.
Qed.

Lemma fold_and_in {A} (P : A -> Prop) l :
  fold_right (fun f acc => P f /\ acc) True l -> Forall P l.
Proof. induction l; cbn; intros H; constructor; tauto. Qed.

Lemma bit_length_tag n : 2 <= n ->
  bit_length (n - 1) = union_tag_bits_from_num_elements n.
Proof. intros H. rewrite union_tag_bits_bit_length by exact H. f_equal. lia. Qed.

Theorem unpack_lax t : wf_type t -> solid t -> lax (unpack t false) (void_mask t).
Proof.
  induction t as [k n cm|n|dyn et mx IH|u fs IH] using dtype_ind'; intros Hwf Hs.
  - intros p w r H.
    assert (mono (unpack (TPrim k n cm))) as Hm by (apply unpack_mono; [exact Hwf|exact I]).
    exists 0, (repeat false n). split; [auto|]. split; [|split].
    + intros q _. apply (Hm p q) in H as [_ H]. exact H.
    + cbn. rewrite app_nil_r. reflexivity.
    + change (unpack (TPrim k n cm) false p)
        with ('(b, s') <- base_unpack p n ;; Ok (VPrim b, s')) in H.
      apply bind_ok in H as ([b s'] & H0 & H). injection H as <- <-.
      apply base_unpack_inv in H0 as (_ & Hge & -> & _); [|exact Hwf].
      rewrite repeat_length, skipn_length. lia.
  - intros p w r H. change (unpack (TVoid n) false p)
      with (@Ok (value * bits) (VVoid, skipn n p)) in H. injection H as <- <-.
    exists (n - length p), (repeat true (Nat.min n (length p))). split; [|split; [|split]].
    + destruct (Nat.le_gt_cases n (length p)); [left; lia|right].
      apply skipn_all2. lia.
    + intros q Hq. change (unpack (TVoid n) false (p ++ q))
        with (@Ok (value * bits) (VVoid, skipn n (p ++ q))).
      rewrite skipn_app. reflexivity.
    + cbn [void_mask]. rewrite repeat_plus. f_equal. lia.
    + rewrite repeat_length, skipn_length. lia.
  - destruct Hwf as (He & _ & Hm). specialize (IH He Hs).
    destruct dyn.
    2:{ apply (lax_ext (fun s => '(vs, s') <- unpack_n (unpack et) mx false s ;;
                  Ok (VArr vs, s'))); [reflexivity|].
        apply lax_map with (m := fun vs => concat (map (void_mask et) vs));
          [apply lax_n; exact IH|]. reflexivity. }
    intros p w r H. rewrite unpack_arr_eq in H. cbn [negb andb] in H. cbn zeta in H.
    set (b := array_len_bits_from_max_size mx) in *.
    apply bind_ok in H as (a & H0 & H).
    apply bind_ok in H as ([vs s'] & H1 & H). injection H as <- <-.
    pose proof (be_from_le_mono _ [] _ _ H0) as [Hn _]. rewrite firstn_length in Hn.
    destruct (lax_n _ _ _ IH _ _ _ H1) as (k & m & D & F & M & L).
    exists k, (repeat false b ++ m). split; [exact D|]. split; [|split].
    + intros q Hq. rewrite unpack_arr_eq. cbn [negb andb]. cbn zeta. fold b.
      rewrite firstn_app_le, H0 by lia. cbn [bind].
      rewrite skipn_app_le, F by (exact Hq || lia). reflexivity.
    + cbn [void_mask]. rewrite M, <- array_len_bits_bit_length by lia. fold b.
      rewrite app_assoc. reflexivity.
    + rewrite skipn_length in L. rewrite app_length, repeat_length. lia.
  - apply wf_fields in Hwf as Hfs. destruct Hwf as [Hu _]. destruct Hs as [Hh Hs].
    apply fold_and_in in Hs.
    assert (Forall (fun t => lax (unpack t false) (void_mask t)) fs) as HF.
    { clear Hu Hh. induction fs as [|f fs IHfs]; constructor;
        inversion IH; inversion Hfs; inversion Hs; subst; auto. }
    destruct u.
    2:{ apply (lax_ext (fun s => '(vs, s') <- unpack_struct (map unpack fs) false s ;;
                  Ok (VComp vs None, s'))); [reflexivity|].
        apply lax_map with (m := fun vs => concat (zip_mask (map void_mask fs) vs));
          [apply lax_struct; exact HF|]. reflexivity. }
    specialize (Hu eq_refl). specialize (Hh eq_refl). apply fold_and_in in Hh.
    intros p w r H. rewrite unpack_comp_eq in H. cbn zeta in H.
    set (b := union_tag_bits_from_num_elements (length fs)) in *.
    destruct (firstn b p) as [|b0 l0] eqn:Ef; [discriminate|].
    rewrite <- Ef in H.
    set (tag := N.to_nat (N_of_bits (firstn b p))) in *.
    destruct (nth_error (map unpack fs) tag) as [uf|] eqn:En; [|discriminate].
    apply bind_ok in H as ([v1 s'] & H0 & H). injection H as <- <-.
    rewrite nth_error_map in En. destruct (nth_error fs tag) as [t|] eqn:Et; [|discriminate].
    cbn in En. injection En as <-. pose proof (nth_error_In _ _ Et) as Hin.
    assert (b <= length p) as Hb.
    { destruct (Nat.le_gt_cases b (length p)) as [|Hlt]; [assumption|exfalso].
      rewrite skipn_all2 in H0 by lia. rewrite Forall_forall in Hh, Hfs.
      apply (Hh t Hin). eapply hollow_from_nothing; [apply Hfs; exact Hin|exact H0]. }
    rewrite Forall_forall in HF.
    destruct (HF t Hin _ _ _ H0) as (k & m & D & F & M & L).
    exists k, (repeat false b ++ m). split; [exact D|]. split; [|split].
    + intros q Hq. rewrite unpack_comp_eq. cbn zeta. fold b.
      rewrite firstn_app_le, Ef by exact Hb. rewrite <- Ef. fold tag.
      rewrite nth_error_map, Et. cbn [option_map].
      rewrite skipn_app_le, F by assumption. reflexivity.
    + cbn [void_mask]. cbn zeta.
      rewrite (nth_zip_mask _ _ _ t v1 Et).
      2:{ apply nth_error_list_set. rewrite map_length. apply nth_error_Some. congruence. }
      rewrite bit_length_tag by exact Hu. fold b. rewrite M, app_assoc. reflexivity.
    + rewrite skipn_length in L. rewrite app_length, repeat_length. lia.
Qed.

(** * The void positions depend on the content only *)
Lemma mask_content t : forall v w, valid t v -> valid t w -> content t v = content t w ->
  void_mask t v = void_mask t w.
Proof.
  induction t as [k n cm|n|dyn et mx IH|u fs IH] using dtype_ind'; intros v w Hv Hw H.
  - reflexivity.
  - reflexivity.
  - apply valid_arr_inv in Hv as (vs & -> & Fv & _).
    apply valid_arr_inv in Hw as (ws & -> & Fw & _).
    cbn [content] in H. injection H as H. cbn [void_mask]. f_equal. f_equal.
    revert ws Fw H. induction Fv as [|v vs Hv Fv IHv]; intros [|w ws] Fw H;
      try discriminate; [reflexivity|].
    inversion Fw; subst. cbn [map] in H |- *. injection H as Ha Hb. f_equal; auto.
  - apply valid_comp_inv in Hv as (vs & a & -> & Fv & Av).
    apply valid_comp_inv in Hw as (ws & b & -> & Fw & Aw).
    cbn [content] in H. cbn zeta in H. cbn [void_mask]. cbn zeta. destruct u.
    + injection H as Hi Hd. f_equal. rewrite <- Hi in Hd |- *.
      set (i := match a with Some i => i | None => 0 end) in *. clearbody i.
      clear Av Aw Hi. revert i vs ws Fv Fw Hd.
      induction fs as [|f fs IHfs]; intros i vs ws Fv Fw Hd;
        inversion Fv; inversion Fw; subst; [reflexivity|].
      inversion IH; subst. destruct i as [|i]; cbn [map zip_content zip_mask nth] in *; auto.
    + injection H as H. f_equal. clear Av Aw a b.
      revert vs ws Fv Fw H.
      induction fs as [|f fs IHfs]; intros vs ws Fv Fw H;
        inversion Fv; inversion Fw; subst; [reflexivity|].
      inversion IH; subst. cbn [map zip_content zip_mask] in *. injection H as Ha Hb.
      f_equal; auto.
Qed.

(** * Cut forms whose missing bits are void are read *)
Definition bearable (t : dtype) (v : value) : Prop :=
  exists bs, pack t false v = Ok bs /\ length (void_mask t v) = length bs /\
    (forall r, exists w, unpack t false (bs ++ r) = Ok (w, r) /\
       content t w = content t v) /\
    (forall p q, bs = p ++ q ->
       forallb id (skipn (length p) (void_mask t v)) = true ->
       exists w, unpack t false p = Ok (w, []) /\ content t w = content t v).

(** Where a cut falls in two parts one after the other. *)
Lemma cut_in_two (b1 b2 p q : bits) (m1 m2 : list bool) :
  b1 ++ b2 = p ++ q -> length m1 = length b1 ->
  forallb id (skipn (length p) (m1 ++ m2)) = true ->
  (exists p', p = b1 ++ p' /\ b2 = p' ++ q /\
     forallb id (skipn (length p') m2) = true) \/
  (exists q', b1 = p ++ q' /\ forallb id (skipn (length p) m1) = true /\
     forallb id m2 = true).
Proof.
  intros E L F. rewrite skipn_app, forallb_app, L in F. apply andb_true_iff in F as [F1 F2].
  destruct (Nat.le_gt_cases (length b1) (length p)) as [H|H].
  - left. exists (skipn (length b1) p).
    assert (p = b1 ++ skipn (length b1) p) as Ep.
    { rewrite <- (firstn_skipn (length b1) p) at 1. f_equal.
      rewrite <- (firstn_app_le _ p q H), <- E. apply firstn_app_exact. reflexivity. }
    split; [exact Ep|]. split.
    + rewrite Ep in E at 1. rewrite <- app_assoc in E. apply app_inv_head in E. exact E.
    + rewrite skipn_length. exact F2.
  - right. exists (skipn (length p) b1).
    split; [|split; [exact F1|]].
    + rewrite <- (firstn_skipn (length p) b1) at 1. f_equal.
      rewrite <- (firstn_app_le _ b1 b2) by lia. rewrite E. apply firstn_app_exact. reflexivity.
    + replace (length p - length b1) with 0 in F2 by lia. exact F2.
Qed.

Lemma bearable_n et vs : Forall (bearable et) vs ->
  exists bss, mapM_last (fun last i => pack et (false && last) i) vs = Ok bss /\
    length (concat (map (void_mask et) vs)) = length (concat bss) /\
    (forall p q, concat bss = p ++ q ->
       forallb id (skipn (length p) (concat (map (void_mask et) vs))) = true ->
       exists ws, unpack_n (unpack et) (length vs) false p = Ok (ws, []) /\
         map (content et) ws = map (content et) vs).
Proof.
  induction 1 as [|v vs (bs & E & L & Rt & Cut) Hvs (bss & Es & Ls & IH)].
  - exists []. split; [reflexivity|]. split; [reflexivity|]. intros p q H _.
    cbn in H. symmetry in H. apply app_eq_nil in H as [-> ->]. exists [].
    split; reflexivity.
  - exists (bs :: bss). cbn [mapM_last andb]. rewrite E. cbn [bind].
    cbn [andb] in Es. rewrite Es. cbn [bind]. split; [reflexivity|].
    cbn [map concat length]. split; [rewrite !app_length; lia|].
    intros p q H F. cbn [unpack_n andb].
    destruct (cut_in_two _ _ _ _ _ _ H L F) as [(p' & -> & Eb & F')|(q' & Eb & F1 & F2)].
    + destruct (Rt p') as (w & -> & Hw). cbn [bind].
      destruct (IH p' q Eb F') as (ws & -> & Hws). cbn [bind].
      exists (w :: ws). split; [reflexivity|]. cbn [map]. congruence.
    + destruct (Cut p q' Eb F1) as (w & -> & Hw). cbn [bind].
      destruct (IH [] (concat bss) eq_refl) as (ws & -> & Hws); [exact F2|]. cbn [bind].
      exists (w :: ws). split; [reflexivity|]. cbn [map]. congruence.
Qed.

Lemma bearable_struct fs vs : Forall2 bearable fs vs ->
  exists bs, pack_struct (map pack fs) false vs = Ok bs /\
    length (concat (zip_mask (map void_mask fs) vs)) = length bs /\
    (forall p q, bs = p ++ q ->
       forallb id (skipn (length p) (concat (zip_mask (map void_mask fs) vs))) = true ->
       exists ws, unpack_struct (map unpack fs) false p = Ok (ws, []) /\
         zip_content (map content fs) ws = zip_content (map content fs) vs).
Proof.
  induction 1 as [|f v fs vs (bs & E & L & Rt & Cut) Hvs (bss & Es & Ls & IH)].
  - exists []. split; [reflexivity|]. split; [reflexivity|]. intros p q H _.
    symmetry in H. apply app_eq_nil in H as [-> ->]. exists [].
    split; reflexivity.
  - exists (bs ++ bss). cbn [map pack_struct andb]. rewrite E, Es. cbn [bind].
    split; [reflexivity|].
    cbn [map zip_mask concat]. split; [rewrite !app_length; lia|].
    intros p q H F. cbn [unpack_struct andb].
    destruct (cut_in_two _ _ _ _ _ _ H L F) as [(p' & -> & Eb & F')|(q' & Eb & F1 & F2)].
    + destruct (Rt p') as (w & -> & Hw). cbn [bind].
      destruct (IH p' q Eb F') as (ws & -> & Hws). cbn [bind].
      exists (w :: ws). split; [reflexivity|]. cbn [map zip_content]. congruence.
    + destruct (Cut p q' Eb F1) as (w & -> & Hw). cbn [bind].
      destruct (IH [] bss eq_refl) as (ws & -> & Hws); [exact F2|]. cbn [bind].
      exists (w :: ws). split; [reflexivity|]. cbn [map zip_content]. congruence.
Qed.

Lemma forallb_false_cut n (m : list bool) k :
  forallb id (skipn k (repeat false n ++ m)) = true -> n <= k.
Proof.
  intros H. destruct (Nat.le_gt_cases n k) as [|Hlt]; [assumption|exfalso].
  rewrite skipn_app, forallb_app in H. apply andb_true_iff in H as [H _].
  replace n with (k + S (n - k - 1)) in H by lia.
  rewrite repeat_app, skipn_app_exact in H by apply repeat_length. discriminate.
Qed.

Theorem all_bearable t : wf_type t -> forall v, valid t v -> bearable t v.
Proof.
  induction t as [k n cm|n|dyn et mx IH|u fs IH] using dtype_ind'; intros Hwf v Hv;
    destruct (pack_unpack _ Hwf v Hv false) as (bs & E & Hrt); exists bs;
    (split; [exact E|]);
    match type of Hrt with forall pad, _ -> exists v' rest, unpack ?T _ _ = _ /\ _ =>
      assert (forall r, exists w, unpack T false (bs ++ r) = Ok (w, r) /\
              content T w = content T v) as Rt
      by (intros r; destruct (Hrt r) as (w & rest & Eu & Hc & _ & [->|[? _]]);
          [discriminate|exists w; auto|discriminate]); clear Hrt
    end.
  - inversion Hv; subst.
    change (pack (TPrim k (length b) cm) false (VPrim b)) with (base_pack b (length b)) in E.
    rewrite base_pack_exact in E by reflexivity. injection E as E.
    assert (length bs = length b) as Lb by (rewrite <- E; apply rchunks_concat_length).
    split; [cbn [void_mask]; rewrite repeat_length; congruence|]. split; [exact Rt|].
    intros p q -> F. cbn [void_mask] in F.
    rewrite <- (app_nil_r (repeat _ _)) in F. apply forallb_false_cut in F.
    rewrite app_length in Lb. assert (q = []) as -> by (destruct q; [reflexivity|cbn in Lb; lia]).
    destruct (Rt []) as (w & Eu & Hc). rewrite !app_nil_r in Eu. exists w. auto.
  - inversion Hv; subst. injection E as <-. split; [cbn [void_mask]; rewrite !repeat_length; reflexivity|].
    split; [exact Rt|]. intros p q Ep F. exists VVoid. split; [|reflexivity].
    change (unpack (TVoid n) false p) with (@Ok (value * bits) (VVoid, skipn n p)).
    rewrite skipn_all2; [reflexivity|].
    apply (f_equal (@length bool)) in Ep. rewrite repeat_length, app_length in Ep. lia.
  - destruct Hwf as (He & _ & Hm). specialize (IH He).
    apply valid_arr_inv in Hv as (items & -> & HV & Hlen).
    assert (Forall (bearable et) items) as HB.
    { eapply Forall_impl; [|exact HV]. exact IH. }
    destruct (bearable_n et items HB) as (bss & Es & Ls & Cut).
    rewrite pack_arr_eq in E. cbn zeta in E. destruct dyn; cbn [negb andb] in E.
    + rewrite firstn_all2, count_field in E by lia. cbn [bind] in E.
      cbn [andb] in Es. rewrite Es in E. cbn [bind] in E. injection E as <-.
      set (b := array_len_bits_from_max_size mx) in *.
      set (cnt := bits_of_N b (N.of_nat (length items))) in *.
      assert (length (concat (rchunks 8 cnt)) = b) as Hb.
      { rewrite rchunks_concat_length. apply bits_of_N_length. }
      assert (bit_length mx = b) as Hbl by (rewrite <- array_len_bits_bit_length by lia; reflexivity).
      split.
      { cbn [void_mask]. rewrite !app_length, repeat_length, Hbl, Hb. congruence. }
      split; [exact Rt|]. intros p q Ep F. cbn [void_mask] in F. rewrite Hbl in F.
      pose proof (forallb_false_cut _ _ _ F) as Hp.
      assert (length (repeat false b) = length (concat (rchunks 8 cnt))) as Hrb
        by (rewrite repeat_length; congruence).
      destruct (cut_in_two _ _ _ _ _ _ Ep Hrb F)
        as [(p' & -> & Eb & F')|(q' & Eb & F1 & F2)].
      * destruct (Cut p' q Eb F') as (ws & Ew & Hws). exists (VArr ws).
        rewrite unpack_arr_eq. cbn [negb andb]. cbn zeta. fold b.
        rewrite firstn_app_exact by exact Hb.
        rewrite skipn_app_exact by exact Hb.
        rewrite <- (app_nil_r (concat (rchunks 8 cnt))).
        rewrite be_le_roundtrip by apply bits_of_N_length. cbn [bind].
        unfold cnt. rewrite N_of_bits_of_N_small by (apply array_len_bits_fit; lia).
        rewrite Nat2N.id, Ew. cbn [bind content]. rewrite Hws. auto.
      * assert (q' = []) as ->.
        { apply (f_equal (@length bool)) in Eb. rewrite Hb, app_length in Eb.
          destruct q'; [reflexivity|cbn in Eb; lia]. }
        rewrite app_nil_r in Eb. subst p.
        destruct (Cut [] (concat bss) eq_refl F2) as (ws & Ew & Hws). exists (VArr ws).
        rewrite unpack_arr_eq. cbn [negb andb]. cbn zeta. fold b.
        rewrite <- (app_nil_r (concat (rchunks 8 cnt))).
        rewrite firstn_app_exact by exact Hb.
        rewrite skipn_app_exact by exact Hb.
        rewrite <- (app_nil_r (concat (rchunks 8 cnt))).
        rewrite be_le_roundtrip by apply bits_of_N_length. cbn [bind].
        unfold cnt. rewrite N_of_bits_of_N_small by (apply array_len_bits_fit; lia).
        rewrite Nat2N.id, Ew. cbn [bind content]. rewrite Hws. auto.
    + subst mx. rewrite firstn_all, Nat.sub_diag in E. cbn [repeat] in E.
      rewrite app_nil_r in E. cbn [andb] in Es. rewrite Es in E. cbn [bind] in E.
      injection E as <-. split; [exact Ls|]. split; [exact Rt|].
      intros p q Ep F. destruct (Cut p q Ep F) as (ws & Ew & Hws). exists (VArr ws).
      rewrite unpack_arr_eq. cbn [negb]. rewrite Ew. cbn [bind content]. rewrite Hws. auto.
  - apply wf_fields in Hwf as Hfs. destruct Hwf as [Hu _].
    assert (forall vs, Forall2 valid fs vs -> Forall2 bearable fs vs) as HF.
    { clear Hv Hu v E Rt. induction fs as [|f fs IHfs]; intros vs H2;
        inversion H2; subst; [constructor|].
      inversion IH; inversion Hfs; subst. constructor; auto. }
    apply valid_comp_inv in Hv as (vs & active & -> & H1 & H3).
    apply HF in H1. rewrite pack_comp_eq in E. cbn zeta in E.
    destruct u; [|subst active].
    + specialize (Hu eq_refl).
      set (tag := match active with Some i => i | None => 0 end) in *.
      assert (tag < length fs) as Ht.
      { unfold tag. destruct active; [apply H3; reflexivity|lia]. }
      destruct (nth_error fs tag) as [t|] eqn:Et; [|apply nth_error_None in Et; lia].
      assert (exists x, nth_error vs tag = Some x /\ bearable t x) as (x & Ex & Bx).
      { clear - H1 Et. clearbody tag. revert tag Et.
        induction H1 as [|f x fs vs Hb H1 IH]; intros [|i] Et; try discriminate.
        - injection Et as <-. exists x. auto.
        - exact (IH i Et). }
      destruct Bx as (bx & E' & L & Rx & Cut).
      rewrite (pack_nth_at _ _ _ _ _ _ Et Ex), E' in E. cbn [bind] in E.
      set (b := union_tag_bits_from_num_elements (length fs)) in *.
      assert (0 < b) as Hb by (apply union_tag_bits_pos; lia).
      rewrite py_format_b_fit in E by (try exact Hb; apply union_tag_bits_fit; lia).
      injection E as <-.
      assert (void_mask (TComp true fs) (VComp vs active) =
              repeat false b ++ void_mask t x) as HM.
      { cbn [void_mask]. cbn zeta. fold tag. rewrite (nth_zip_mask _ _ _ _ _ Et Ex).
        rewrite bit_length_tag by exact Hu. reflexivity. }
      rewrite HM. split; [rewrite !app_length, repeat_length, bits_of_N_length; lia|].
      split; [exact Rt|]. intros p q Ep F.
      pose proof (forallb_false_cut _ _ _ F) as Hp.
      assert (exists p', p = bits_of_N b (N.of_nat tag) ++ p' /\ bx = p' ++ q /\
                forallb id (skipn (length p') (void_mask t x)) = true)
        as (p' & -> & Eb & F').
      { assert (length (repeat false b) = length (bits_of_N b (N.of_nat tag))) as Hrb
          by (rewrite repeat_length, bits_of_N_length; reflexivity).
        destruct (cut_in_two _ _ _ _ _ _ Ep Hrb F)
          as [H|(q' & Eb & F1 & F2)]; [exact H|].
        assert (q' = []) as ->.
        { apply (f_equal (@length bool)) in Eb. rewrite bits_of_N_length, app_length in Eb.
          destruct q'; [reflexivity|cbn in Eb; lia]. }
        rewrite app_nil_r in Eb. subst p. exists []. rewrite app_nil_r.
        apply app_inv_head in Ep. auto. }
      destruct (Cut p' q Eb F') as (w & Ew & Hw).
      exists (VComp (list_set (map default fs) tag w) (Some tag)).
      rewrite unpack_comp_eq. cbn zeta. fold b.
      rewrite firstn_app_exact by apply bits_of_N_length.
      rewrite skipn_app_exact by apply bits_of_N_length.
      destruct (bits_of_N b (N.of_nat tag)) as [|b0 l0] eqn:Ebt.
      { apply (f_equal (@length bool)) in Ebt. rewrite bits_of_N_length in Ebt.
        cbn in Ebt. lia. }
      rewrite <- Ebt.
      rewrite N_of_bits_of_N_small by (apply union_tag_bits_fit; lia).
      rewrite Nat2N.id, nth_error_map, Et. cbn [option_map]. rewrite Ew. cbn [bind content].
      split; [reflexivity|]. cbn zeta. fold tag. f_equal.
      rewrite (nth_zip_content _ _ _ t w Et).
      2:{ apply nth_error_list_set. rewrite map_length. exact Ht. }
      rewrite (nth_zip_content _ _ _ t x Et Ex). exact Hw.
    + destruct (bearable_struct fs vs H1) as (bs' & E' & L & Cut).
      rewrite E' in E. injection E as ->. split; [exact L|]. split; [exact Rt|].
      intros p q Ep F. destruct (Cut p q Ep F) as (ws & Ew & Hws). exists (VComp ws None).
      rewrite unpack_comp_eq, Ew. cbn [bind content]. rewrite Hws. auto.
Qed.

(** A form that was cut is read exactly when all it lacks is void; then it
    means what the whole form means. *)
Theorem cut_iff t v bs p q : wf_type t -> solid t -> valid t v ->
  pack t false v = Ok bs -> bs = p ++ q ->
  is_ok (unpack t false p) = forallb id (skipn (length p) (void_mask t v)).
Proof.
  intros Hwf Hs Hv Hp ->.
  destruct (forallb id (skipn (length p) (void_mask t v))) eqn:F.
  - destruct (all_bearable t Hwf v Hv) as (bs & E & _ & _ & Cut).
    rewrite Hp in E. injection E as <-.
    destruct (Cut p q eq_refl F) as (w & -> & _). reflexivity.
  - destruct (unpack t false p) as [[w r]|e] eqn:E; [exfalso|reflexivity].
    destruct (unpack_lax t Hwf Hs _ _ _ E) as (k & m & D & X & M & L).
    destruct (pack_unpack t Hwf v Hv false) as (bs & E' & Hrt).
    rewrite Hp in E'. injection E' as <-.
    destruct (Hrt (repeat false k)) as (v2 & rest & E2 & Hc & Hv2 & [->|[? _]]);
      [discriminate| |discriminate].
    rewrite <- app_assoc, X in E2 by (rewrite app_length, repeat_length; lia).
    injection E2 as <- Hr.
    pose proof (f_equal (@length bool) Hr) as HL.
    rewrite app_length, skipn_length, app_length, repeat_length in HL.
    assert (k = length q /\ r = []) as [-> ->].
    { destruct D as [->| ->]; [|cbn in HL; split; [lia|reflexivity]].
      split; [lia|]. destruct r; [reflexivity|cbn in HL; lia]. }
    rewrite <- (mask_content t w v Hv2 Hv Hc), M in F. cbn [length] in L.
    rewrite skipn_app_exact in F by lia.
    clear - F. induction (length q) as [|n IH]; [discriminate|]. apply IH. exact F.
Qed.

Theorem cut_means t v bs p q w r : wf_type t -> solid t -> valid t v ->
  pack t false v = Ok bs -> bs = p ++ q -> unpack t false p = Ok (w, r) ->
  r = [] /\ content t w = content t v.
Proof.
  intros Hwf Hs Hv Hp Hb E.
  pose proof (cut_iff t v bs p q Hwf Hs Hv Hp Hb) as H. rewrite E in H. symmetry in H.
  destruct (all_bearable t Hwf v Hv) as (bs' & E' & _ & _ & Cut).
  rewrite Hp in E'. injection E' as <-.
  destruct (Cut p q Hb H) as (w' & E' & Hc). rewrite E in E'. injection E' as -> ->. auto.
Qed.
