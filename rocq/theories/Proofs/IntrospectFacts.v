(** JSON and YAML (C63, C91). *)
From Coq Require Import String.
From Verif.Base Require Import Prelude Bits.
From Verif.Model Require Import Types Codec Prim Float Utf8 Parser ObjectApi Introspect.
From Verif.Spec Require Import CodecSpec IntrospectSpec.
From Verif.Proofs Require Import FloatFields ObjectFacts.
Open Scope list_scope.
Open Scope nat_scope.

(** ** Numbers *)
Lemma N_of_bits_zero b : N_of_bits b = 0%N <-> ~ In true b.
Proof.
  induction b as [|x b IH] using rev_ind; [split; [intros _ []|reflexivity]|].
  rewrite N_of_bits_snoc, in_app_iff. destruct x; cbn [N.b2n]; [split; [lia|intros H; exfalso; apply H; right; left; reflexivity]|].
  split.
  - intros H [H1|[H1|[]]]; [|discriminate]. apply IH in H1; [exact H1|lia].
  - intros H. assert (N_of_bits b = 0%N) by (apply IH; intros H1; apply H; left; exact H1). lia.
Qed.

Lemma reads_total k n cm b : regular (APrim k n cm) -> length b = n ->
  exists x, read_prim k n b = Ok (Some x) /\ reads k n b x.
Proof.
  intros Hr Hl.
  assert (Hne : b <> []) by (intros ->; destruct k; cbn in Hr, Hl; lia).
  assert (Hlt := N_of_bits_lt b). rewrite Hl in Hlt.
  destruct k; cbn [read_prim regular] in *.
  - unfold get_int. destruct b as [|b0 b']; [congruence|]. cbn [option_map]. eexists. split; [reflexivity|].
    split; [exact Hne|]. eexists. split; [reflexivity|].
    destruct (Z.of_N (N_of_bits (b0 :: b')) =? 0)%Z eqn:E.
    + split; [discriminate|]. intros H. exfalso. revert H. apply N_of_bits_zero. lia.
    + split; [|reflexivity]. intros _. destruct (in_dec Bool.bool_dec true (b0 :: b')) as [H|H]; [exact H|].
      apply N_of_bits_zero in H. lia.
  - unfold get_int. destruct b as [|b0 b']; [congruence|]. eexists. split; [reflexivity|]. split; [exact Hne|reflexivity].
  - unfold get_int. destruct b as [|b0 b']; [congruence|]. eexists. split; [reflexivity|]. split; [exact Hne|].
    eexists. split; [reflexivity|].
    set (x := Z.of_N (N_of_bits (b0 :: b'))) in *.
    assert (Hx : (0 <= x < 2 ^ Z.of_nat n)%Z).
    { unfold x. split; [lia|]. apply N2Z.inj_lt in Hlt. rewrite N2Z.inj_pow in Hlt.
      rewrite nat_N_Z in Hlt. exact Hlt. }
    rewrite !Z.shiftl_mul_pow2, !Z.mul_1_l by lia.
    assert (Ep : (2 ^ Z.of_nat n = 2 * 2 ^ (Z.of_nat n - 1))%Z).
    { rewrite <- Z.pow_succ_r by lia. f_equal. lia. }
    destruct (2 ^ (Z.of_nat n - 1) <=? x)%Z eqn:E.
    + apply Z.leb_le in E. split; [lia|].
      replace (- (2 ^ Z.of_nat n - x))%Z with (x + (-1) * 2 ^ Z.of_nat n)%Z by ring.
      rewrite Z.mod_add by lia. apply Z.mod_small. exact Hx.
    + apply Z.leb_gt in E. split; [lia|]. apply Z.mod_small. exact Hx.
  - assert (exists y, get_float n b = Ok (Some y)) as (y & E).
    { destruct Hr as [-> |[-> | ->]].
      - destruct (get16 b Hl) as (y & E & _). eauto.
      - unfold get_float. destruct b; [congruence|]. eauto.
      - unfold get_float. destruct b; [congruence|]. eauto. }
    exists (NFloat y). rewrite E. split; [reflexivity|]. split; [exact Hne|]. eauto.
Qed.

Lemma reads_unique k n b x y : (1 <= n)%nat -> reads k n b x -> reads k n b y -> x = y.
Proof.
  intros Hn (Hb & Hx) (_ & Hy). destruct k.
  - destruct Hx as (u & -> & Hu). destruct Hy as (w & -> & Hw). f_equal.
    destruct u, w; try reflexivity; exfalso; [apply proj2 in Hw|apply proj2 in Hu]; intuition discriminate.
  - congruence.
  - destruct Hx as (u & -> & Hu & Eu). destruct Hy as (w & -> & Hw & Ew). f_equal.
    assert (Ep : (2 ^ Z.of_nat n = 2 * 2 ^ (Z.of_nat n - 1))%Z).
    { rewrite <- Z.pow_succ_r by lia. f_equal. lia. }
    assert (Hp : (0 < 2 ^ (Z.of_nat n - 1))%Z) by (apply Z.pow_pos_nonneg; lia).
    rewrite <- Ew in Eu. set (m := (2 ^ Z.of_nat n)%Z) in *. set (h := (2 ^ (Z.of_nat n - 1))%Z) in *.
    clearbody m h. subst m.
    assert (E : ((u - w) mod (2 * h) = 0)%Z).
    { rewrite Zminus_mod, Eu, Z.sub_diag. apply Z.mod_0_l. lia. }
    apply Z.mod_divide in E; [|lia]. destruct E as (q & E).
    assert (q = 0)%Z by nia. subst q. lia.
  - destruct Hx as (u & -> & Eu). destruct Hy as (w & -> & Ew). congruence.
Qed.

Lemma regular_width k n cm : regular (APrim k n cm) -> (1 <= n)%nat.
Proof. destruct k; cbn; lia. Qed.

(** ** Lists *)
Lemma mapM_ok {A B} (f : A -> res B) l ys : mapM f l = Ok ys -> Forall2 (fun x y => f x = Ok y) l ys.
Proof.
  revert ys. induction l as [|x l IH]; intros ys H; cbn [mapM] in H.
  - injection H as <-. constructor.
  - apply bind_ok in H as (y & Ey & H). apply bind_ok in H as (zs & Ez & H). injection H as <-.
    constructor; [exact Ey|apply IH; exact Ez].
Qed.
Lemma mapM_all {A B} (f : A -> res B) l : Forall (fun x => exists y, f x = Ok y) l -> exists ys, mapM f l = Ok ys.
Proof.
  intros H. induction H as [|x l (y & E) H (ys & IH)]; cbn [mapM]; [eauto|]. rewrite E, IH. cbn [bind]. eauto.
Qed.
Lemma Forall2_nth {A B} (R : A -> B -> Prop) l l' : Forall2 R l l' ->
  forall i, match nth_error l i, nth_error l' i with
            | Some x, Some y => R x y
            | None, None => True
            | _, _ => False
            end.
Proof. intros H. induction H; intros [|i]; cbn; auto. apply IHForall2. Qed.
Lemma Forall2_len {A B} (R : A -> B -> Prop) l l' : Forall2 R l l' -> length l = length l'.
Proof. intros H. induction H; cbn; congruence. Qed.

Lemma items_read k n cm items : regular (APrim k n cm) -> Forall (valid (TPrim k n cm)) items ->
  exists xs, mapM (read_item (APrim k n cm)) items = Ok xs /\
    Forall2 (fun v x => exists b, v = VPrim b /\ reads k n b x) items xs.
Proof.
  intros Hr H. induction H as [|v items Hv H (xs & E & IH)]; [exists []; split; [reflexivity|constructor]|].
  inversion Hv; subst. destruct (reads_total k (length b) cm b Hr eq_refl) as (x & Ex & Hx).
  exists (x :: xs). cbn [mapM]. assert (read_item (APrim k (length b) cm) (VPrim b) = Ok x) as ->.
  { unfold read_item. destruct b; [destruct Hx; congruence|]. rewrite Ex. reflexivity. }
  rewrite E. split; [reflexivity|]. constructor; [exists b; auto|exact IH].
Qed.

Lemma shown_spec u active i : shown u active i = true <-> (u = true -> active = Some i).
Proof.
  unfold shown. destruct u; [|split; [discriminate|reflexivity]]. destruct active as [a|].
  - rewrite Nat.eqb_eq. split; [intros ->; reflexivity|]. intros H. specialize (H eq_refl). congruence.
  - split; [discriminate|]. intros H. specialize (H eq_refl). discriminate.
Qed.

Lemma valid_items dyn et mx v : valid (TArr dyn et mx) v -> exists items, v = VArr items /\ Forall (valid et) items.
Proof. intros H. inversion H; subst; eauto. Qed.
Lemma valid_fields u (fs : list (string * atype)) v : valid (TComp u (map (fun f => erase (snd f)) fs)) v ->
  exists vs active, v = VComp vs active /\ Forall2 (fun f v => valid (erase (snd f)) v) fs vs.
Proof.
  assert (G : forall (l : list (string * atype)) vs, Forall2 valid (map (fun f => erase (snd f)) l) vs ->
            Forall2 (fun f v => valid (erase (snd f)) v) l vs).
  { induction l as [|f l IH]; intros vs H; inversion H; subst; constructor; auto. }
  intros H. inversion H; subst; eauto.
Qed.

Lemma regular_fields nm u fs cs : regular (AComp nm u fs cs) ->
  NoDup (map fst fs) /\ Forall (fun f => regular (snd f)) fs.
Proof.
  cbn [regular]. intros (Hn & H). split; [exact Hn|]. clear Hn.
  induction fs as [|f fs IH]; [constructor|]. destruct H as (H1 & H2). constructor; auto.
Qed.

Definition prim_type (t : atype) : bool := match t with APrim _ _ _ => true | _ => false end.
Definition void_type (t : atype) : bool := match t with AVoid _ => true | _ => false end.
Lemma void_type_spec t : void_type t = true <-> is_void t.
Proof. destruct t; cbn; split; auto; discriminate. Qed.

Lemma to_json_items dyn et mx items : prim_type et = false ->
  to_json (AArr dyn et mx) (VArr items) = (js <- mapM (to_json et) items ;; Ok (JList js)).
Proof. destruct et; [discriminate| | |]; reflexivity. Qed.
Lemma json_fields_cons nm t names f fs v vs sh i :
  json_fields ((nm, t) :: names) (f :: fs) (v :: vs) sh i =
  if negb (void_type t) && sh i
  then j <- f v ;; r <- json_fields names fs vs sh (S i) ;; Ok ((nm, j) :: r)
  else json_fields names fs vs sh (S i).
Proof. destruct t; cbn [json_fields void_type negb andb]; reflexivity. Qed.

(** ** What the dictionary holds *)
Lemma json_fields_get names : forall vs sh i d,
  NoDup (map fst names) ->
  json_fields names (map (fun f => to_json (snd f)) names) vs sh i = Ok d ->
  forall nm j, dget String.eqb d nm = Some j <->
    exists k t v, nth_error names k = Some (nm, t) /\ nth_error vs k = Some v /\
      void_type t = false /\ sh (i + k) = true /\ to_json t v = Ok j.
Proof.
  induction names as [|(n0 & t0) names IH]; intros vs sh i d Hnd H nm j.
  - destruct vs; [|discriminate]. injection H as <-. cbn. split; [discriminate|].
    intros ([|k] & t & v & E & _); discriminate.
  - destruct vs as [|v0 vs]; [discriminate|]. cbn [map snd] in H. rewrite json_fields_cons in H.
    cbn [map fst] in Hnd. apply NoDup_cons_iff in Hnd as (Hnin & Hnd).
    assert (Hrest : forall d', json_fields names (map (fun f => to_json (snd f)) names) vs sh (S i) = Ok d' ->
              (dget String.eqb d' nm = Some j <->
               exists k t v, nth_error ((n0, t0) :: names) (S k) = Some (nm, t) /\ nth_error (v0 :: vs) (S k) = Some v /\
                 void_type t = false /\ sh (i + S k) = true /\ to_json t v = Ok j)).
    { intros d' Hd. rewrite (IH vs sh (S i) d' Hnd Hd nm j). cbn [nth_error].
      split; intros (k & t & v & A & B & C & D & E); exists k, t, v; repeat (split; [assumption|]);
        (split; [|exact E]); [replace (i + S k) with (S i + k) by lia|replace (S i + k) with (i + S k) by lia]; exact D. }
    assert (Hsplit : (exists k t v, nth_error ((n0, t0) :: names) k = Some (nm, t) /\ nth_error (v0 :: vs) k = Some v /\
                 void_type t = false /\ sh (i + k) = true /\ to_json t v = Ok j) <->
              (nm = n0 /\ void_type t0 = false /\ sh i = true /\ to_json t0 v0 = Ok j) \/
              (exists k t v, nth_error ((n0, t0) :: names) (S k) = Some (nm, t) /\ nth_error (v0 :: vs) (S k) = Some v /\
                 void_type t = false /\ sh (i + S k) = true /\ to_json t v = Ok j)).
    { split.
      - intros ([|k] & t & v & A & B & C & D & E).
        + left. cbn in A, B. injection A as <- <-. injection B as <-. rewrite Nat.add_0_r in D. auto.
        + right. exists k, t, v. auto.
      - intros [(-> & A & B & C)|(k & t & v & A)].
        + exists 0, t0, v0. rewrite Nat.add_0_r. cbn. auto.
        + exists (S k), t, v. exact A. }
    assert (Hin : (exists k t v, nth_error ((n0, t0) :: names) (S k) = Some (nm, t) /\ nth_error (v0 :: vs) (S k) = Some v /\
                 void_type t = false /\ sh (i + S k) = true /\ to_json t v = Ok j) -> nm <> n0).
    { intros (k & t & v & A & _) ->. apply Hnin. cbn [nth_error] in A. apply nth_error_In in A. apply (in_map fst) in A. exact A. }
    rewrite Hsplit. destruct (negb (void_type t0) && sh i) eqn:Eb.
    + apply andb_true_iff in Eb as (Ev & Es). apply negb_true_iff in Ev.
      apply bind_ok in H as (j0 & Ej & H). apply bind_ok in H as (r & Er & H). injection H as <-.
      cbn [dget]. destruct (String.eqb nm n0) eqn:En.
      * apply String.eqb_eq in En. subst nm. split.
        -- intros [= <-]. left. auto.
        -- intros [(_ & _ & _ & E)|E]; [congruence|]. exfalso. exact (Hin E eq_refl).
      * apply String.eqb_neq in En. rewrite (Hrest r Er). split; [auto|].
        intros [(E & _)|E]; [congruence|exact E].
    + rewrite (Hrest d H). split; [auto|]. intros [(_ & A & B & _)|E]; [|exact E].
      rewrite A, B in Eb. discriminate.
Qed.

Lemma json_shows t : forall v j, regular t -> valid (erase t) v -> to_json t v = Ok j ->
  forall p w, look j p = Some w <-> sees t v p w.
Proof.
  induction t as [k n cm|n|dyn et mx IH|nm u fs cs IH] using atype_ind'; intros v j Hr Hv Hj p w.
  - cbn [erase] in Hv. inversion Hv; subst. destruct (reads_total k (length b) cm b Hr eq_refl) as (x & Ex & Hx).
    cbn [to_json] in Hj. rewrite Ex in Hj. cbn [bind] in Hj. injection Hj as <-.
    split.
    + destruct p as [|[f|i] p]; cbn [look]; try discriminate. intros [= <-]. constructor. exact Hx.
    + intros H. inversion H; subst. cbn [look]. f_equal. f_equal.
      eapply reads_unique; [exact (regular_width _ _ _ Hr)|eassumption|eassumption].
  - cbn [to_json] in Hj. injection Hj as <-. split.
    + destruct p as [|[f|i] p]; discriminate.
    + intros H. inversion H.
  - cbn [erase] in Hv. apply valid_items in Hv as (items & -> & Hv). destruct Hr as (Hr & Hnv).
    destruct (prim_type et) eqn:Ept.
    + destruct et as [k n cm| | |]; try discriminate. clear Ept.
      destruct (items_read k n cm items Hr Hv) as (xs & Ex & Hxs).
      cbn [to_json] in Hj. rewrite Ex in Hj. cbn [bind] in Hj.
      assert (Hlist : j = JList (map JNum xs) \/ (items = [] /\ j = JStr [])).
      { destruct (string_like dyn (APrim k n cm)); cbn [bind] in Hj; [|left; congruence].
        destruct xs as [|x xs]; [|discriminate]. cbn in Hj. injection Hj as <-. inversion Hxs. right. auto. }
      destruct Hlist as [-> | (-> & ->)].
      * split.
        -- destruct p as [|[f|i] p]; cbn [look]; try discriminate.
           ++ intros [= <-]. rewrite map_length, <- (Forall2_len _ _ _ Hxs). constructor.
           ++ rewrite nth_error_map. pose proof (Forall2_nth _ _ _ Hxs i) as Hi.
              destruct (nth_error xs i) as [x|] eqn:Ei; cbn [option_map]; [|discriminate].
              destruct (nth_error items i) as [v|] eqn:Ev; [|destruct Hi]. destruct Hi as (b & -> & Hb).
              destruct p as [|[f|i'] p]; cbn [look]; try discriminate. intros [= <-].
              eapply sees_item; [exact Ev|]. constructor. exact Hb.
        -- intros H. inversion H; subst; cbn [look].
           ++ rewrite map_length, <- (Forall2_len _ _ _ Hxs). reflexivity.
           ++ match goal with Hn : nth_error items ?i = Some ?v, Hs : sees _ ?v _ _ |- _ =>
                pose proof (Forall2_nth _ _ _ Hxs i) as Hi; rewrite Hn in Hi; inversion Hs; subst end.
              rewrite nth_error_map. destruct (nth_error xs i) as [x'|]; [|destruct Hi].
              destruct Hi as (b' & E & Hb'). injection E as <-. cbn [option_map look]. f_equal. f_equal.
              eapply reads_unique; [exact (regular_width _ _ _ Hr)|eassumption|eassumption].
      * split.
        -- destruct p as [|[f|[|i]] p]; cbn; try discriminate. intros [= <-]. constructor.
        -- intros H. inversion H; subst; cbn; [reflexivity|]. destruct i; discriminate.
    + rewrite to_json_items in Hj by exact Ept. apply bind_ok in Hj as (js & Ejs & Hj). injection Hj as <-.
      apply mapM_ok in Ejs. split.
      * destruct p as [|[f|i] p]; cbn [look]; try discriminate.
        -- intros [= <-]. rewrite <- (Forall2_len _ _ _ Ejs). constructor.
        -- pose proof (Forall2_nth _ _ _ Ejs i) as Hi.
           destruct (nth_error js i) as [j'|] eqn:Ei; [|discriminate].
           destruct (nth_error items i) as [v|] eqn:Ev; [|destruct Hi].
           intros H. eapply sees_item; [exact Ev|]. apply (IH v j' Hr); [|exact Hi|exact H].
           rewrite Forall_forall in Hv. apply Hv. apply nth_error_In in Ev. exact Ev.
      * intros H. inversion H; subst; cbn [look].
        -- rewrite <- (Forall2_len _ _ _ Ejs). reflexivity.
        -- match goal with Hn : nth_error items ?i = Some ?v |- _ => rename Hn into Hn0 end.
           pose proof (Forall2_nth _ _ _ Ejs i) as Hi. rewrite Hn0 in Hi.
           destruct (nth_error js i) as [j'|]; [|destruct Hi]. apply (IH v j' Hr); [|exact Hi|assumption].
           rewrite Forall_forall in Hv. apply Hv. apply nth_error_In in Hn0. exact Hn0.
  - cbn [erase] in Hv. apply valid_fields in Hv as (vs & active & -> & Hv).
    apply regular_fields in Hr as (Hnd & Hr).
    cbn [to_json] in Hj. apply bind_ok in Hj as (d & Ed & Hj). injection Hj as <-.
    pose proof (json_fields_get fs vs _ 0 d Hnd Ed) as Hget.
    assert (Hstep : forall i f t v j, nth_error fs i = Some (f, t) -> nth_error vs i = Some v -> to_json t v = Ok j ->
              forall p w, look j p = Some w <-> sees t v p w).
    { intros i f t v j Hf Hvi Hjj. rewrite Forall_forall in IH. apply (IH (f, t)); [eapply nth_error_In; exact Hf| | |exact Hjj].
      - rewrite Forall_forall in Hr. apply (Hr (f, t)). eapply nth_error_In; exact Hf.
      - pose proof (Forall2_nth _ _ _ Hv i) as Hi. rewrite Hf, Hvi in Hi. exact Hi. }
    split.
    + destruct p as [|[f|i] p]; cbn [look]; try discriminate.
      * intros [= <-]. constructor.
      * destruct (dget String.eqb d f) as [j'|] eqn:Ef; [|discriminate].
        apply Hget in Ef as (i & t & v & A & B & C & D & E). intros H. cbn [plus] in D.
        eapply sees_field; [exact A|exact B| | |].
        -- rewrite <- void_type_spec. congruence.
        -- apply shown_spec. exact D.
        -- apply (Hstep i f t v j' A B E). exact H.
    + intros H. inversion H; subst; cbn [look]; [reflexivity|].
      assert (exists j', to_json t v = Ok j') as (j' & Ej').
      { clear Hstep Hget.
        match goal with A : nth_error fs i = Some _, B : nth_error vs i = Some _, C : ~ is_void t, D : _ -> active = Some i |- _ =>
          assert (Es : shown u active (0 + i) = true) by (apply shown_spec; exact D); revert A B C Es end.
        revert Ed. generalize (shown u active) as sh. generalize 0 as o. clear. revert vs d i.
        induction fs as [|(n0 & t0) fs IHf]; intros vs d i o sh Ed A B C D; [destruct i; discriminate|].
        destruct vs as [|v0 vs]; [discriminate|]. cbn [map snd] in Ed. rewrite json_fields_cons in Ed.
        destruct i as [|i].
        - cbn in A, B. injection A as -> ->. injection B as ->. rewrite Nat.add_0_r in D.
          assert (void_type t = false) as Ev by (apply not_true_is_false; rewrite void_type_spec; exact C).
          rewrite Ev, D in Ed. cbn [negb andb] in Ed. apply bind_ok in Ed as (j & E & _). eauto.
        - cbn in A, B. replace (o + S i) with (S o + i) in D by lia.
          destruct (negb (void_type t0) && sh o).
          + apply bind_ok in Ed as (j0 & _ & Ed). apply bind_ok in Ed as (r & Er & _).
            exact (IHf vs r i (S o) sh Er A B C D).
          + exact (IHf vs d i (S o) sh Ed A B C D). }
      assert (dget String.eqb d f = Some j') as ->.
      { apply Hget. exists i, t, v. repeat (split; [assumption|]). split; [|split; [|exact Ej']].
        - apply not_true_is_false. rewrite void_type_spec. assumption.
        - apply shown_spec. assumption. }
      match goal with A : nth_error fs i = Some _, B : nth_error vs i = Some _ |- _ =>
        apply (Hstep i f t v j' A B Ej') end. assumption.
Qed.

(** ** When it fails *)
Lemma json_outcome t : forall v, regular t -> valid (erase t) v ->
  (exists j, to_json t v = Ok j) /\ ~ array_inside some_text t v \/
  to_json t v = Err AttributeError /\ array_inside some_text t v.
Proof.
  induction t as [k n cm|n|dyn et mx IH|nm u fs cs IH] using atype_ind'; intros v Hr Hv.
  - left. cbn [erase] in Hv. inversion Hv; subst. destruct (reads_total k (length b) cm b Hr eq_refl) as (x & Ex & _).
    cbn [to_json]. rewrite Ex. split; [eexists; reflexivity|]. intros H. inversion H.
  - left. split; [eexists; reflexivity|]. intros H. inversion H.
  - cbn [erase] in Hv. apply valid_items in Hv as (items & -> & Hv). destruct Hr as (Hr & Hnv).
    destruct (prim_type et) eqn:Ept.
    + destruct et as [k n cm| | |]; try discriminate. clear Ept.
      destruct (items_read k n cm items Hr Hv) as (xs & Ex & Hxs).
      assert (Hno : ~ some_text dyn (APrim k n cm) items -> ~ array_inside some_text (AArr dyn (APrim k n cm) mx) (VArr items)).
      { intros H0 H. inversion H; subst; [contradiction|]. match goal with H1 : array_inside _ (APrim _ _ _) _ |- _ => inversion H1 end. }
      cbn [to_json]. rewrite Ex. cbn [bind]. destruct (string_like dyn (APrim k n cm)) eqn:Es.
      * cbn [string_like] in Es. apply andb_true_iff in Es as (-> & En). apply Nat.eqb_eq in En. subst n.
        destruct xs as [|x xs].
        -- left. inversion Hxs; subst. cbn. split; [eauto|]. apply Hno. intros (_ & _ & H). congruence.
        -- right. cbn. split; [reflexivity|]. apply inside_here. split; [reflexivity|]. split; [eauto|].
           inversion Hxs; subst. discriminate.
      * left. cbn [bind]. split; [eauto|]. apply Hno. intros (-> & (k' & cm' & E) & _). injection E as -> -> ->.
        discriminate.
    + rewrite to_json_items by exact Ept.
      assert (Hcases : (exists js, mapM (to_json et) items = Ok js) /\ (forall v, In v items -> ~ array_inside some_text et v) \/
                       mapM (to_json et) items = Err AttributeError /\ exists v, In v items /\ array_inside some_text et v).
      { clear Hnv Ept. induction Hv as [|v items Hv1 Hv IHv]; [left; split; [exists []; reflexivity|intros v []]|].
        cbn [mapM]. destruct (IH v Hr Hv1) as [((j & ->) & Hn)|(-> & Hy)].
        - cbn [bind]. destruct IHv as [((js & ->) & Hns)|(-> & v' & Hin & Hy)].
          + left. split; [eexists; reflexivity|]. intros v' [<-|Hin]; auto.
          + right. split; [reflexivity|]. exists v'. split; [right; exact Hin|exact Hy].
        - right. split; [reflexivity|]. exists v. split; [left; reflexivity|exact Hy]. }
      destruct Hcases as [((js & ->) & Hn)|(-> & v & Hin & Hy)].
      * left. split; [eexists; reflexivity|]. intros H. inversion H; subst.
        -- match goal with H0 : some_text _ _ _ |- _ => destruct H0 as (_ & (k & cm & ->) & _) end. discriminate.
        -- eapply Hn; eassumption.
      * right. split; [reflexivity|]. eapply inside_item; eassumption.
  - cbn [erase] in Hv. apply valid_fields in Hv as (vs & active & -> & Hv).
    apply regular_fields in Hr as (_ & Hr). cbn [to_json].
    assert (Hcases : forall o,
        (exists d, json_fields fs (map (fun f => to_json (snd f)) fs) vs (shown u active) o = Ok d) /\
        (forall i f t v, nth_error fs i = Some (f, t) -> nth_error vs i = Some v -> shown u active (o + i) = true ->
            ~ array_inside some_text t v) \/
        json_fields fs (map (fun f => to_json (snd f)) fs) vs (shown u active) o = Err AttributeError /\
        exists i f t v, nth_error fs i = Some (f, t) /\ nth_error vs i = Some v /\ shown u active (o + i) = true /\
            array_inside some_text t v).
    { induction Hv as [|(f0 & t0) v0 fs vs Hv0 Hv IHv]; intros o.
      - left. split; [eexists; reflexivity|]. intros [|i]; discriminate.
      - apply Forall_cons_iff in IH as (IH0 & IH). apply Forall_cons_iff in Hr as (Hr0 & Hr). cbn [snd] in *.
        specialize (IHv IH Hr (S o)). cbn [map snd]. rewrite json_fields_cons.
        assert (Hshift : forall i, S o + i = o + S i) by (intros; lia).
        destruct (negb (void_type t0) && shown u active o) eqn:Eb.
        + destruct (IH0 v0 Hr0 Hv0) as [((j & ->) & Hn)|(-> & Hy)].
          * cbn [bind]. destruct IHv as [((d & ->) & Hns)|(-> & i & f & t & v & A & B & C & D)].
            -- left. split; [eexists; reflexivity|]. intros [|i] f t v A B C.
               ++ cbn in A, B. injection A as <- <-. injection B as <-. exact Hn.
               ++ cbn in A, B. rewrite <- Hshift in C. exact (Hns i f t v A B C).
            -- right. split; [reflexivity|]. exists (S i), f, t, v. cbn [nth_error]. rewrite <- Hshift. auto.
          * right. split; [reflexivity|]. exists 0, f0, t0, v0. rewrite Nat.add_0_r. apply andb_true_iff in Eb as (_ & Eb).
            cbn. auto.
        + assert (Hn0 : shown u active o = true -> ~ array_inside some_text t0 v0).
          { intros Es Hy. rewrite Es, andb_true_r in Eb. apply negb_false_iff in Eb. destruct t0; try discriminate. inversion Hy. }
          destruct IHv as [(Hd & Hns)|(Hd & i & f & t & v & A & B & C & D)].
          * left. split; [exact Hd|]. intros [|i] f t v A B C.
            -- cbn in A, B. injection A as <- <-. injection B as <-. apply Hn0. rewrite Nat.add_0_r in C. exact C.
            -- cbn in A, B. rewrite <- Hshift in C. exact (Hns i f t v A B C).
          * right. split; [exact Hd|]. exists (S i), f, t, v. cbn [nth_error]. rewrite <- Hshift. auto. }
    destruct (Hcases 0) as [((d & ->) & Hn)|(-> & i & f & t & v & A & B & C & D)].
    + left. split; [eexists; reflexivity|]. intros H. inversion H; subst.
      match goal with A : nth_error fs ?i = Some _, B : nth_error vs ?i = Some _, D : _ -> active = Some ?i |- _ =>
        apply (Hn i _ _ _ A B); [apply shown_spec; exact D|assumption] end.
    + right. split; [reflexivity|]. eapply inside_field; [exact A|exact B| |exact D]. apply shown_spec. exact C.
Qed.

Lemma json_fails t v : regular t -> valid (erase t) v ->
  (to_json t v = Err AttributeError <-> array_inside some_text t v) /\
  ((exists j, to_json t v = Ok j) <-> ~ array_inside some_text t v).
Proof.
  intros Hr Hv. destruct (json_outcome t v Hr Hv) as [((j & E) & Hn)|(E & Hy)]; rewrite E.
  - split; split; intros H; try discriminate; try contradiction; eauto.
  - split; split; intros H; try reflexivity; try contradiction; auto. destruct H; discriminate.
Qed.

(** ** YAML *)
Section Yaml.
  Variables (fmt_float : nat -> pyfloat -> text) (py_repr : text -> text).
  Notation to_yaml := (to_yaml fmt_float py_repr).

  Lemma to_yaml_items dyn et mx items indent owner : prim_type et = false ->
    to_yaml (AArr dyn et mx) (VArr items) indent owner =
    match items with
    | [] => Ok (txt "[]")
    | _ =>
        ss <- mapM (fun x => to_yaml et x (S indent) None) items ;;
        Ok (List.concat (map (fun s => newline indent ++ txt "- " ++ s) ss))
    end.
  Proof. destruct et; [discriminate| | |]; reflexivity. Qed.
  Lemma yaml_fields_cons nm t names f fs v vs sh i indent owner first :
    yaml_fields ((nm, t) :: names) (f :: fs) (v :: vs) sh i indent owner first =
    if negb (void_type t) && sh i
    then
      let nl := if (first && Nat.ltb 0 indent) || negb first then newline indent else [] in
      s <- f v (S indent) (owner (txt nm)) ;;
      '(r, fst') <- yaml_fields names fs vs sh (S i) indent owner false ;;
      Ok (nl ++ txt nm ++ txt ": " ++ s ++ r, fst')
    else yaml_fields names fs vs sh (S i) indent owner first.
  Proof. destruct t; cbn [yaml_fields void_type negb andb]; reflexivity. Qed.

  Definition nice_char (z : Z) : Prop := ((32 <= z <= 126) \/ z = 9 \/ z = 10 \/ z = 13)%Z.

  (** The characters of an array of unsigned numbers are bytes. *)
  Lemma chars_unsigned items cm xs : Forall (valid (TPrim KUint 8 cm)) items ->
    Forall2 (fun v x => exists b, v = VPrim b /\ reads KUint 8 b x) items xs ->
    exists bs, xs = map (fun b => NInt (Z.of_N b)) bs /\ Forall (fun b => b < 256)%N bs.
  Proof.
    intros Hv H. revert Hv. induction H as [|v x items xs (b & -> & Hb & ->) H IH]; intros Hv; [exists []; split; [reflexivity|constructor]|].
    apply Forall_cons_iff in Hv as (Hv1 & Hv). destruct (IH Hv) as (bs & -> & Hbs). inversion Hv1; subst.
    exists (N_of_bits b :: bs). split; [reflexivity|]. constructor; [|exact Hbs].
    pose proof (N_of_bits_lt b) as Hlt.
    match goal with Hl : length b = 8 |- _ => rewrite Hl in Hlt end. exact Hlt.
  Qed.

  Lemma all_yaml_bytes bs : Forall (fun b => b < 256)%N bs ->
    exists r, all_yaml (map (fun b => NInt (Z.of_N b)) bs) = Ok r /\
      (r = true -> Forall (fun b => b < 128)%N bs).
  Proof.
    intros H. induction H as [|b bs Hb H (r & E & Hr)]; [exists true; split; [reflexivity|constructor]|].
    cbn [map all_yaml nice_yaml].
    destruct ((32 <=? Z.of_N b)%Z && (Z.of_N b <=? 126)%Z) eqn:E1.
    - cbn [bind]. exists r. split; [exact E|]. intros Ht. constructor; [lia|auto].
    - destruct ((Z.of_N b <? 0)%Z || (256 <=? Z.of_N b)%Z) eqn:E2; [lia|]. cbn [bind].
      destruct ((Z.of_N b =? 10)%Z || (Z.of_N b =? 13)%Z || (Z.of_N b =? 9)%Z) eqn:E3.
      + exists r. split; [exact E|]. intros Ht. constructor; [lia|auto].
      + exists false. split; [reflexivity|discriminate].
  Qed.
  Lemma number_bytes_map bs : Forall (fun b => b < 128)%N bs ->
    number_bytes (map (fun b => NInt (Z.of_N b)) bs) = Ok bs.
  Proof.
    intros H. induction H as [|b bs Hb H IH]; [reflexivity|]. cbn [map number_bytes].
    destruct ((0 <=? Z.of_N b)%Z && (Z.of_N b <? 256)%Z) eqn:E; [|lia]. rewrite IH. cbn [bind].
    rewrite N2Z.id. reflexivity.
  Qed.
  Lemma decode_ascii bs : Forall (fun b => b < 128)%N bs -> utf8_decode bs = Ok bs.
  Proof.
    intros H. induction H as [|b bs Hb H IH]; [reflexivity|]. cbn [utf8_decode].
    destruct (b <? 0x80)%N eqn:E; [|lia]. rewrite IH. reflexivity.
  Qed.

  Lemma signed_outcome items cm xs :
    Forall2 (fun v x => exists b, v = VPrim b /\ reads KInt 8 b x) items xs ->
    (exists r, all_yaml xs = Ok r /\
       (r = true -> exists bs, xs = map (fun b => NInt (Z.of_N b)) bs /\ Forall (fun b => b < 128)%N bs) /\
       ~ negative_text true (APrim KInt 8 cm) items) \/
    (all_yaml xs = Err ValueError /\ negative_text true (APrim KInt 8 cm) items).
  Proof.
    intros H. induction H as [|v x items xs (b & -> & Hb) H IH].
    - left. exists true. split; [reflexivity|]. split; [intros _; exists []; split; [reflexivity|constructor]|].
      intros (_ & cm' & pre & b & post & z & _ & E & _). destruct pre; discriminate.
    - pose proof Hb as (Hne & z & -> & Hz & Em). change (2 ^ (Z.of_nat 8 - 1))%Z with 128%Z in Hz.
      cbn [all_yaml nice_yaml].
      assert (Hnice : nice_char z -> 
        (exists r, all_yaml xs = Ok r /\
          (r = true -> exists bs, NInt z :: xs = map (fun b => NInt (Z.of_N b)) bs /\ Forall (fun b => b < 128)%N bs) /\
          ~ negative_text true (APrim KInt 8 cm) (VPrim b :: items)) \/
        (all_yaml xs = Err ValueError /\ negative_text true (APrim KInt 8 cm) (VPrim b :: items))).
      { intros Hnz. destruct IH as [(r & E & Hr & Hn)|(E & _ & cm' & pre & b' & post & z' & E1 & E2 & E3 & E4 & E5)].
        - left. exists r. split; [exact E|]. split.
          + intros Ht. destruct (Hr Ht) as (bs & -> & Hbs). exists (Z.to_N z :: bs). cbn [map].
            unfold nice_char in Hnz. rewrite Z2N.id by lia. split; [reflexivity|]. constructor; [lia|exact Hbs].
          + intros (_ & cm' & pre & b' & post & z' & E1 & E2 & E3 & E4 & E5). destruct pre as [|v0 pre].
            * cbn in E2. injection E2 as -> ->.
              pose proof (reads_unique KInt 8 b' _ _ ltac:(lia) Hb E3) as E0. injection E0 as ->. unfold nice_char in Hnz. lia.
            * cbn in E2. injection E2 as <- ->. apply Forall_cons_iff in E5 as (_ & E5).
              apply Hn. split; [reflexivity|]. exists cm', pre, b', post, z'. auto 6.
        - right. split; [exact E|]. split; [reflexivity|]. exists cm', (VPrim b :: pre), b', post, z'.
          split; [exact E1|]. split; [rewrite E2; reflexivity|]. split; [exact E3|]. split; [exact E4|].
          constructor; [|exact E5]. exists b, z. auto. }
      destruct ((32 <=? z)%Z && (z <=? 126)%Z) eqn:E1; [cbn [bind]; apply Hnice; unfold nice_char; lia|].
      destruct ((z <? 0)%Z || (256 <=? z)%Z) eqn:E2.
      + right. split; [reflexivity|]. split; [reflexivity|]. exists cm, [], b, items, z.
        split; [reflexivity|]. split; [reflexivity|]. split; [exact Hb|]. split; [lia|constructor].
      + cbn [bind]. destruct ((z =? 10)%Z || (z =? 13)%Z || (z =? 9)%Z) eqn:E3; [apply Hnice; unfold nice_char; lia|].
        left. exists false. split; [reflexivity|]. split; [discriminate|].
        intros (_ & cm' & pre & b' & post & z' & F1 & F2 & F3 & F4 & F5). destruct pre as [|v0 pre].
        * cbn in F2. injection F2 as -> ->.
          pose proof (reads_unique KInt 8 b' _ _ ltac:(lia) Hb F3) as E0. injection E0 as ->. lia.
        * cbn in F2. injection F2 as <- ->. apply Forall_cons_iff in F5 as ((b0 & z0 & G1 & G2 & G3) & _).
          injection G1 as ->. pose proof (reads_unique KInt 8 b0 _ _ ltac:(lia) Hb G2) as E0. injection E0 as ->. lia.
  Qed.

  Lemma yaml_outcome t : forall v indent owner, regular t -> valid (erase t) v ->
    (exists s, to_yaml t v indent owner = Ok s) /\ ~ array_inside negative_text t v \/
    to_yaml t v indent owner = Err ValueError /\ array_inside negative_text t v.
  Proof.
    induction t as [k n cm|n|dyn et mx IH|nm u fs cs IH] using atype_ind'; intros v indent owner Hr Hv.
    - left. cbn [erase] in Hv. inversion Hv; subst. destruct (reads_total k (length b) cm b Hr eq_refl) as (x & Ex & _).
      cbn [Introspect.to_yaml]. rewrite Ex. split; [eexists; reflexivity|]. intros H. inversion H.
    - left. split; [eexists; reflexivity|]. intros H. inversion H.
    - cbn [erase] in Hv. apply valid_items in Hv as (items & -> & Hv). destruct Hr as (Hr & Hnv).
      destruct (prim_type et) eqn:Ept.
      + destruct et as [k n cm| | |]; try discriminate. clear Ept.
        destruct (items_read k n cm items Hr Hv) as (xs & Ex & Hxs).
        assert (Hno : ~ negative_text dyn (APrim k n cm) items -> ~ array_inside negative_text (AArr dyn (APrim k n cm) mx) (VArr items)).
        { intros H0 H. inversion H; subst; [contradiction|]. match goal with H1 : array_inside _ (APrim _ _ _) _ |- _ => inversion H1 end. }
        cbn [Introspect.to_yaml]. rewrite Ex. cbn [bind]. destruct (string_like dyn (APrim k n cm)) eqn:Es.
        * cbn [string_like] in Es. apply andb_true_iff in Es as (-> & En). apply Nat.eqb_eq in En. subst n.
          destruct k.
          -- cbn in Hr. lia.
          -- destruct (chars_unsigned items cm xs Hv Hxs) as (bs & -> & Hbs).
             destruct (all_yaml_bytes bs Hbs) as (r & -> & Hrt). cbn [bind]. left. split.
             ++ destruct r; [|eexists; reflexivity]. specialize (Hrt eq_refl).
                rewrite number_bytes_map by exact Hrt. cbn [bind]. rewrite decode_ascii by exact Hrt. eexists. reflexivity.
             ++ apply Hno. intros (_ & cm' & pre & b & post & z & E & _). discriminate.
          -- destruct (signed_outcome items cm xs Hxs) as [(r & -> & Hrt & Hn)|(-> & Hy)].
             ++ left. cbn [bind]. split; [|apply Hno; exact Hn].
                destruct r; [|eexists; reflexivity]. destruct (Hrt eq_refl) as (bs & -> & Hbs).
                rewrite number_bytes_map by exact Hbs. cbn [bind]. rewrite decode_ascii by exact Hbs. eexists. reflexivity.
             ++ right. split; [reflexivity|]. apply inside_here. exact Hy.
          -- cbn in Hr. lia.
        * left. cbn [bind]. split; [eexists; reflexivity|]. apply Hno.
          intros (-> & cm' & pre & b & post & z & E & _). injection E as -> -> ->. discriminate.
      + rewrite to_yaml_items by exact Ept.
        assert (Hcases : (exists ss, mapM (fun x => to_yaml et x (S indent) None) items = Ok ss) /\ (forall v, In v items -> ~ array_inside negative_text et v) \/
                         mapM (fun x => to_yaml et x (S indent) None) items = Err ValueError /\ items <> [] /\ exists v, In v items /\ array_inside negative_text et v).
        { clear Hnv Ept. induction Hv as [|v items Hv1 Hv IHv]; [left; split; [exists []; reflexivity|intros v []]|].
          cbn [mapM]. destruct (IH v (S indent) None Hr Hv1) as [((j & ->) & Hn)|(-> & Hy)].
          - cbn [bind]. destruct IHv as [((js & ->) & Hns)|(-> & _ & v' & Hin & Hy)].
            + left. split; [eexists; reflexivity|]. intros v' [<-|Hin]; auto.
            + right. split; [reflexivity|]. split; [discriminate|]. exists v'. split; [right; exact Hin|exact Hy].
          - right. split; [reflexivity|]. split; [discriminate|]. exists v. split; [left; reflexivity|exact Hy]. }
        destruct Hcases as [((js & E) & Hn)|(E & Hne & v & Hin & Hy)].
        * left. split; [destruct items; [|rewrite E]; eexists; reflexivity|]. intros H. inversion H; subst.
          -- match goal with H0 : negative_text _ _ _ |- _ => destruct H0 as (_ & cm' & pre & b & post & z & -> & _) end. discriminate.
          -- eapply Hn; eassumption.
        * right. split; [destruct items; [congruence|rewrite E; reflexivity]|]. eapply inside_item; eassumption.
    - cbn [erase] in Hv. apply valid_fields in Hv as (vs & active & -> & Hv).
      apply regular_fields in Hr as (_ & Hr). cbn [Introspect.to_yaml].
      set (own := fun nm0 : text => Some (map (fun c : string * Z => (txt (fst c), CInt (snd c))) cs, length fs, nm0)).
      clearbody own.
      assert (Hcases : forall o first,
          (exists d, yaml_fields fs (map (fun f => to_yaml (snd f)) fs) vs (shown u active) o indent own first = Ok d) /\
          (forall i f t v, nth_error fs i = Some (f, t) -> nth_error vs i = Some v -> shown u active (o + i) = true ->
              ~ array_inside negative_text t v) \/
          yaml_fields fs (map (fun f => to_yaml (snd f)) fs) vs (shown u active) o indent own first = Err ValueError /\
          exists i f t v, nth_error fs i = Some (f, t) /\ nth_error vs i = Some v /\ shown u active (o + i) = true /\
              array_inside negative_text t v).
      { induction Hv as [|(f0 & t0) v0 fs vs Hv0 Hv IHv]; intros o first.
        - left. split; [eexists; reflexivity|]. intros [|i]; discriminate.
        - apply Forall_cons_iff in IH as (IH0 & IH). apply Forall_cons_iff in Hr as (Hr0 & Hr). cbn [snd] in *.
          specialize (IHv IH Hr (S o)). cbn [map snd]. rewrite yaml_fields_cons. cbv zeta.
          assert (Hshift : forall i, S o + i = o + S i) by (intros; lia).
          destruct (negb (void_type t0) && shown u active o) eqn:Eb.
          + destruct (IH0 v0 (S indent) (own (txt f0)) Hr0 Hv0) as [((j & ->) & Hn)|(-> & Hy)].
            * cbn [bind]. destruct (IHv false) as [(((d & d') & ->) & Hns)|(-> & i & f & t & v & A & B & C & D)].
              -- left. split; [eexists; reflexivity|]. intros [|i] f t v A B C.
                 ++ cbn in A, B. injection A as <- <-. injection B as <-. exact Hn.
                 ++ cbn in A, B. rewrite <- Hshift in C. exact (Hns i f t v A B C).
              -- right. split; [reflexivity|]. exists (S i), f, t, v. cbn [nth_error]. rewrite <- Hshift. auto.
            * right. split; [reflexivity|]. exists 0, f0, t0, v0. rewrite Nat.add_0_r. apply andb_true_iff in Eb as (_ & Eb).
              cbn. auto.
          + assert (Hn0 : shown u active o = true -> ~ array_inside negative_text t0 v0).
            { intros Es Hy. rewrite Es, andb_true_r in Eb. apply negb_false_iff in Eb. destruct t0; try discriminate. inversion Hy. }
            destruct (IHv first) as [(Hd & Hns)|(Hd & i & f & t & v & A & B & C & D)].
            * left. split; [exact Hd|]. intros [|i] f t v A B C.
              -- cbn in A, B. injection A as <- <-. injection B as <-. apply Hn0. rewrite Nat.add_0_r in C. exact C.
              -- cbn in A, B. rewrite <- Hshift in C. exact (Hns i f t v A B C).
            * right. split; [exact Hd|]. exists (S i), f, t, v. cbn [nth_error]. rewrite <- Hshift. auto. }
      destruct (Hcases 0 true) as [(((d & d') & ->) & Hn)|(-> & i & f & t & v & A & B & C & D)].
      + left. cbn [bind]. split; [destruct (d' && negb u); eexists; reflexivity|]. intros H. inversion H; subst.
        match goal with A : nth_error fs ?i = Some _, B : nth_error vs ?i = Some _, D : _ -> active = Some ?i |- _ =>
          apply (Hn i _ _ _ A B); [apply shown_spec; exact D|assumption] end.
      + right. split; [reflexivity|]. eapply inside_field; [exact A|exact B| |exact D]. apply shown_spec. exact C.
  Qed.

  Lemma yaml_fails t v indent owner : regular t -> valid (erase t) v ->
    (to_yaml t v indent owner = Err ValueError <-> array_inside negative_text t v) /\
    ((exists s, to_yaml t v indent owner = Ok s) <-> ~ array_inside negative_text t v).
  Proof.
    intros Hr Hv. destruct (yaml_outcome t v indent owner Hr Hv) as [((j & E) & Hn)|(E & Hy)]; rewrite E.
    - split; split; intros H; try discriminate; try contradiction; eauto.
    - split; split; intros H; try reflexivity; try contradiction; auto. destruct H; discriminate.
  Qed.
End Yaml.
