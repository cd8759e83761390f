(** Programs that receive messages and send them. *)
From Coq Require Import String.
From Verif.Base Require Import Prelude Bits.
From Verif.Model Require Import BitCodec Types Codec Prim Float Utf8 ObjectApi ObjectUnpack.
From Verif.Spec Require Import PrimSpec CodecSpec ObjectSpec FloatSpec SendableSpec ReceiveSpec.
From Verif.Proofs Require Import CodecFacts DecodeFacts WireFacts ClipFacts CodecTop ObjectFacts ObjectTop ObjectUnions ObjectTyping ObjectInv ObjectSend ObjectLoad ObjectLoadInv ObjectView ObjectText.
Open Scope list_scope.
Local Open Scope nat_scope.

Section Receive.
  Variable env : catalogue.

  Lemma receive_keeps t h tao s : known env t -> I env h -> I env (snd (receive h t tao s)).
  Proof.
    intros K V. destruct (receive h t tao s) as [[a|e] h'] eqn:E.
    { exact (proj1 (receive_inv env t h tao s a h' K V E)). }
    unfold receive, new_object in E. destruct t as [| | |nm u fs cs]; try (injection E as _ <-; exact V).
    set (t := AComp nm u fs cs) in *.
    destruct (made_alloc env t K h V) as (A & _).
    destruct (alloc t h) as (x & h1). cbn [fst snd] in *. cbn [init_fields] in E.
    destruct x as [| |[| | | | | |b]]; try (injection E as _ <-; exact A).
    destruct (load t h1 (SObj (PRef b)) tao s) as [[[x' s'] h2]|]; [discriminate|]. injection E as _ <-. exact A.
  Qed.

  Lemma history_inv es : Forall (typed_happening env) es -> I env (history es).
  Proof.
    unfold history. assert (I env []) as V by apply inv_nil. revert V. generalize (@nil cell).
    induction es as [|e es IH]; intros h V F; [exact V|]. apply Forall_cons_iff in F as (Fe & F). cbn [fold_left].
    apply IH; [|exact F]. destruct e as [o|t tao s]; cbn [happen]; [exact (step_inv env h o Fe V)|exact (receive_keeps t h tao s Fe V)].
  Qed.

  Lemma history_run ops : history (map Did ops) = run [] ops.
  Proof.
    unfold history. generalize (@nil cell). induction ops as [|o ops IH]; intros h; [reflexivity|]. cbn. apply IH.
  Qed.

  Lemma history_known es a nm u fs cs d active extra : Forall (typed_happening env) es ->
    nth_error (history es) a = Some (CComp nm u fs cs d active extra) ->
    exists T, inv env T (history es) /\ known env (AComp nm u fs cs).
  Proof.
    intros F E. destruct (history_inv es F) as (T & V). exists T. split; [exact V|]. exact (proj1 (V _ _ E)).
  Qed.

  Lemma forwardable es a nm u fs cs d active extra v tao : Forall (typed_happening env) es ->
    nth_error (history es) a = Some (CComp nm u fs cs d active extra) ->
    let t := AComp nm u fs cs in
    reify (history es) t (SObj (PRef a)) = Some v ->
    exists bs, pack (erase t) tao v = Ok bs /\ List.length bs <= get_max_bitlen (erase t) /\
      exists v' rest, unpack (erase t) tao bs = Ok (v', rest) /\ valid (erase t) v' /\
        content (erase t) v' = content (erase t) (clip (erase t) v).
  Proof.
    intros F E t R. destruct (history_known _ _ _ _ _ _ _ _ _ F E) as (T & V & K).
    destruct (reify_fits env T _ V t _ _ K Logic.I R) as (L & _). pose proof (known_wf env t K) as Hwf.
    destruct (pack_clip (erase t) Hwf v L) as [Hv Hp]. rewrite Hp.
    destruct (pack_bounds (erase t) Hwf _ Hv tao) as (bs & Eb & Hb).
    destruct (pack_unpack (erase t) Hwf _ Hv tao) as (bs' & E' & Hrt).
    rewrite Eb in E'. injection E' as <-.
    exists bs. split; [exact Eb|]. split; [lia|].
    destruct (Hrt []) as (v' & rest' & E2 & Hc & Hv' & _); [cbn; lia|].
    rewrite app_nil_r in E2. exists v', rest'. auto.
  Qed.

  Lemma same_view es a nm u fs cs d active extra v tao bs es' pad :
    Forall (typed_happening env) es -> Forall (typed_happening env) es' ->
    nth_error (history es) a = Some (CComp nm u fs cs d active extra) ->
    let t := AComp nm u fs cs in
    distinct_names t -> reify (history es) t (SObj (PRef a)) = Some v -> valid (erase t) v -> selected (erase t) v ->
    pack (erase t) tao v = Ok bs -> (tao = true -> List.length pad < 8) ->
    exists b h', receive (history es') t tao (bs ++ pad) = (Ok b, h') /\
      forall path, declared t path -> view h' (PRef b) path = view (history es) (PRef a) path.
  Proof.
    intros F F' E t DN R VA SE P LP. destruct (history_known _ _ _ _ _ _ _ _ _ F E) as (T & V & K).
    pose proof (known_wf env t K) as Hwf.
    destruct (pack_unpack (erase t) Hwf _ VA tao) as (bs' & E' & Hrt). rewrite P in E'. injection E' as <-.
    destruct (Hrt pad LP) as (v' & rest & EU & EC & VA' & _).
    pose proof (receive_ok t (history es') tao (bs ++ pad) DN (ex_intro _ nm (ex_intro _ u (ex_intro _ fs (ex_intro _ cs eq_refl))))) as RO.
    rewrite EU in RO. destruct RO as (b & h' & RO & R' & _).
    destruct (receive_inv env t _ _ _ _ _ K (history_inv _ F') RO) as ((T' & V') & FO).
    exists b, h'. split; [exact RO|]. intros path D.
    symmetry. apply (view_twins env T T' (history es) h' V V' path t (SObj (PRef a)) (SObj (PRef b))); [|exact D|reflexivity|reflexivity].
    split; [exact K|]. split; [exact Logic.I|]. split; [exact Logic.I|].
    exists v, v'. split; [exact R|]. split; [exact R'|]. split; [symmetry; exact EC|]. split; [exact SE|].
    exact (unpack_selected _ _ _ _ _ EU).
  Qed.

  Lemma program_valid ops a nm u fs cs d active extra v : Forall (typed_op env) ops -> legal_run [] ops ->
    nth_error (run [] ops) a = Some (CComp nm u fs cs d active extra) -> statics_full (run [] ops) ->
    reify (run [] ops) (AComp nm u fs cs) (SObj (PRef a)) = Some v -> valid (erase (AComp nm u fs cs)) v.
  Proof.
    intros F LR E SF R. destruct (built env _ _ _ _ _ _ _ _ _ F E) as (T & V & K).
    exact (proj2 (reify_fits env T _ V _ _ _ K Logic.I R) (program_sizes ops LR) SF).
  Qed.

  Lemma number_arrives es a nm u fs cs act f i k n cm z v tao bs es' pad :
    let h := history es in let t := AComp nm u fs cs in
    object_at h a t act -> open_field h a f -> (exists s, field_slot h a f = Some s) ->
    find_field fs f = Some (i, APrim k n cm) -> ~ In f (map fst cs) -> int_type k n -> representable k n z ->
    let es1 := es ++ [Did (OSet a f (PInt z))] in
    Forall (typed_happening env) es -> Forall (typed_happening env) es' -> distinct_names t ->
    reify (history es1) t (SObj (PRef a)) = Some v -> valid (erase t) v -> selected (erase t) v ->
    pack (erase t) tao v = Ok bs -> (tao = true -> List.length pad < 8) ->
    exists b h', receive (history es') t tao (bs ++ pad) = (Ok b, h') /\ fst (step h' (OGet b f)) = Ok (PInt z).
  Proof.
    intros h t (d & extra & E) Ho (s & Hs) Ef Hc Ht Hr es1 F F' DN R VA SE P LP.
    unfold field_slot in Hs. rewrite E, Ef in Hs. destruct (nth_error h d) as [[|slots|]|] eqn:Ed; try discriminate.
    destruct (set_int_field h a nm u fs cs act f i k n cm z slots d extra) as (h1 & b1 & S1 & _ & _ & S2); try assumption.
    { apply nth_error_Some. congruence. }
    { intros Hu. exact (Ho _ _ _ _ _ _ _ E Hu). }
    assert (history es1 = h1) as H1.
    { unfold es1, history. rewrite fold_left_app. cbn [fold_left happen]. fold (history es). fold h. rewrite S1. reflexivity. }
    assert (Forall (typed_happening env) es1) as F1.
    { apply Forall_app. split; [exact F|]. constructor; [exact Logic.I|constructor]. }
    assert (exists d1 act1 extra1, nth_error (history es1) a = Some (CComp nm u fs cs d1 act1 extra1)) as (d1 & act1 & extra1 & E1).
    { unfold t in R. cbn [reify] in R. destruct (nth_error (history es1) a) as [[| |nm' u' fs' cs' d1 act1 extra1]|] eqn:E1; try discriminate.
      pose proof S2 as S2'. cbn [step] in S2'. rewrite H1 in E1.
      destruct (String.eqb nm nm') eqn:EN; cbn [andb] in R; [|discriminate]. apply String.eqb_eq in EN as <-.
      destruct (history_inv es F) as (T & V). destruct (history_inv es1 F1) as (T1 & V1).
      destruct (known_same env _ _ _ _ _ _ _ (proj1 (V _ _ E)) (proj1 (V1 _ _ ltac:(rewrite H1; exact E1)))) as (<- & <- & <-).
      eauto. }
    destruct (same_view es1 a nm u fs cs d1 act1 extra1 v tao bs es' pad F1 F' E1 DN R VA SE P LP) as (b & h' & RC & VW).
    exists b, h'. split; [exact RC|].
    specialize (VW [Attr f] (or_intror (ex_intro _ i (ex_intro _ (APrim k n cm) (conj Ef Logic.I))))).
    rewrite H1 in VW. cbn [view] in VW. rewrite S2 in VW.
    destruct (step h' (OGet b f)) as [[w|e] h2]; cbn [view] in VW; [|discriminate]. injection VW as VW. cbn [fst].
    destruct w; try (injection VW as ->; reflexivity); try discriminate.
    destruct (nth_error h2 a0) as [[| |]|]; discriminate.
  Qed.

  Lemma text_arrives es a nm fs cs act f i cm mx c s v tao bs es' pad :
    let h := history es in let t := AComp nm false fs cs in
    object_at h a t act -> find_field fs f = Some (i, AArr true (APrim KUint 8 cm) mx) ->
    text_field h a f c KUint mx -> Forall scalar s -> utf8_size s <= mx ->
    let es1 := es ++ [Did (OSet a f (PStr s))] in
    Forall (typed_happening env) es -> Forall (typed_happening env) es' -> distinct_names t ->
    reify (history es1) t (SObj (PRef a)) = Some v -> valid (erase t) v -> selected (erase t) v ->
    pack (erase t) tao v = Ok bs -> (tao = true -> List.length pad < 8) ->
    exists b h' r, receive (history es') t tao (bs ++ pad) = (Ok b, h') /\ step h' (OGet b f) = (Ok (PRef r), h') /\
      step h' (ODecode r) = (Ok (PStr s), h').
  Proof.
    intros h t (d & extra & E) Ef TF SC SZ es1 F F' DN R VA SE P LP.
    destruct (assign_text s h a f c mx TF SC SZ) as (h1 & S1 & FA & DC).
    assert (history es1 = h1) as H1.
    { unfold es1, history. rewrite fold_left_app. cbn [fold_left happen step]. fold (history es). fold h. rewrite S1. reflexivity. }
    assert (Forall (typed_happening env) es1) as F1.
    { apply Forall_app. split; [exact F|]. constructor; [exact Logic.I|constructor]. }
    assert (exists d1 act1 extra1, nth_error (history es1) a = Some (CComp nm false fs cs d1 act1 extra1)) as (d1 & act1 & extra1 & E1).
    { unfold t in R. cbn [reify] in R. destruct (nth_error (history es1) a) as [[| |nm' u' fs' cs' d1 act1 extra1]|] eqn:E1; try discriminate.
      destruct (String.eqb nm nm') eqn:EN; cbn [andb] in R; [|discriminate]. apply String.eqb_eq in EN as <-.
      destruct (history_inv es F) as (T & V). destruct (history_inv es1 F1) as (T1 & V1).
      destruct (known_same env _ _ _ _ _ _ _ (proj1 (V _ _ E)) (proj1 (V1 _ _ E1))) as (<- & <- & <-).
      eauto. }
    destruct (same_view es1 a nm false fs cs d1 act1 extra1 v tao bs es' pad F1 F' E1 DN R VA SE P LP) as (b & h' & RC & VW).
    specialize (VW [Attr f] (or_intror (ex_intro _ i (ex_intro _ _ (conj Ef Logic.I))))).
    rewrite H1 in VW, E1. cbn [view step] in VW.
    destruct FA as (full & u' & fs' & cs' & d' & act' & ex' & i' & dyn & et & mx' & slots & FA1 & FA2 & FA3 & FA4 & FA5).
    rewrite E1 in FA1. injection FA1 as <- <- <- <- <- <- <-.
    assert (getattr h1 a f = (Ok (PRef c), h1)) as G.
    { unfold getattr. rewrite E1, FA2, FA3. cbn [union_blocks andb]. rewrite FA4, FA5. reflexivity. }
    rewrite G in VW. unfold arr_decode in DC.
    destruct (nth_error h1 c) as [[dyn2 et2 mx2 items2| |]|] eqn:EC; try discriminate.
    assert (arr_decode h1 c = Ok s) as DC'. { unfold arr_decode. rewrite EC. exact DC. }
    rewrite DC' in VW.
    destruct (getattr h' b f) as [[w|e] h2] eqn:GB; [|discriminate]. injection VW as VW.
    destruct w as [| | | | | |r]; try discriminate.
    destruct (nth_error h2 r) as [[dyn3 et3 mx3 items3| |]|] eqn:ER; try discriminate. injection VW as _ VW.
    destruct (history_known _ _ _ _ _ _ _ _ _ F1 ltac:(rewrite H1; exact E1)) as (_ & _ & K).
    destruct (receive_inv env t _ _ _ _ _ K (history_inv _ F') RC) as ((T' & V') & (b' & EQ & u4 & fs4 & cs4 & d4 & act4 & ex4 & E4)).
    injection EQ as <-. destruct (known_same env _ _ _ _ _ _ _ K (proj1 (V' _ _ E4))) as (<- & <- & <-).
    assert (h2 = h') as ->.
    { unfold getattr in GB. rewrite E4, FA2, FA3 in GB. cbn [union_blocks andb] in GB.
      destruct (nth_error h' d4) as [[|slots4|]|]; try (injection GB as _ <-; reflexivity).
      destruct (nth_error slots4 i') as [[| |]|]; try (injection GB as _ <-; reflexivity). }
    exists b, h', r. split; [exact RC|]. split; [cbn [step]; rewrite GB; reflexivity|].
    cbn [step]. rewrite VW. reflexivity.
  Qed.
End Receive.
