(** Facts of the ESC control program. *)
From Coq Require Import String.
From Verif.Base Require Import Prelude Bits.
From Verif.Model Require Import BitCodec Types Codec Prim ObjectApi Slcan Parser Hobbywing.
From Verif.Spec Require Import PrimSpec ObjectSpec ConstructSpec ParserSpec GrammarSpec PathSpec HobbywingSpec.
From Verif.Proofs Require Import CodecFacts PrimFacts ObjectFacts ObjectArrays ObjectUnions ConstructFacts PathFacts.
Open Scope list_scope.
Local Open Scope nat_scope.

Lemma number_is s z k : PathSpec.decimal_text s z -> number s k = k z.
Proof. intros T. unfold number. apply py_int10 in T. rewrite T. reflexivity. Qed.
Lemma number_not s k : (forall z, ~ PathSpec.decimal_text s z) -> exists e, number s k = Raises e.
Proof.
  intros T. unfold number. destruct (py_int 10 s) as [z|e] eqn:E; [apply py_int10 in E; contradiction (T z E)|eauto].
Qed.
Lemma numbers_are l : forall zs k, Forall2 PathSpec.decimal_text l zs -> numbers l k = k zs.
Proof.
  induction l as [|s l IH]; intros zs k F; inversion F; subst; [reflexivity|]. cbn [numbers].
  rewrite (number_is s y) by assumption. rewrite (IH l') by assumption. reflexivity.
Qed.

Lemma assign_step a h nm v kw h2 : assigned a h ((nm, v) :: kw) h2 ->
  exists h1, (forall k, assign a nm v h k = k h1) /\ assigned a h1 kw h2.
Proof. intros A. inversion A; subst. exists h1. split; [|assumption]. intros k. unfold assign. rewrite H5. reflexivity. Qed.
Lemma assigned_end a h h2 : assigned a h [] h2 -> h2 = h.
Proof. intros A. inversion A. reflexivity. Qed.

Lemma combine_in {A B C} (g : B -> C) (l : list A) : forall (m : list B) x y, In (x, y) (combine l m) -> In (x, g y) (combine l (map g m)).
Proof.
  induction l as [|a l IH]; intros [|b m] x y I; cbn in *; try contradiction.
  destruct I as [E|I]; [injection E as -> ->; left; reflexivity|right; apply IH, I].
Qed.
Lemma combine_fst {A B C} (g : B -> C) (l : list A) : forall (m : list B), map fst (combine l (map g m)) = map fst (combine l m).
Proof. induction l as [|a l IH]; intros [|b m]; cbn; congruence. Qed.

(** The object that is made, and what it holds after assignments. *)
Lemma made h nm fs cs (kw : list (string * Z)) : Forall (integer_for fs cs) (map (fun e => (fst e, PInt (snd e))) kw) -> NoDup (map fst kw) ->
  exists a h1 h', step h (ONew (AComp nm false fs cs) []) = (Ok (PRef a), h1) /\
    assigned a h1 (map (fun e => (fst e, PInt (snd e))) kw) h' /\ filled h (AComp nm false fs cs) kw h' a.
Proof.
  intros F ND. assert (map fst (map (fun e : string * Z => (fst e, PInt (snd e))) kw) = map fst kw) as M.
  { rewrite map_map. apply map_ext. reflexivity. }
  destruct (given_full h nm fs cs _ F ltac:(rewrite M; exact ND)) as (a & h1 & h' & E & _ & A & G & K & O).
  exists a, h1, h'. split; [exact E|]. split; [exact A|]. exists h1. split; [exact E|]. split; [|split; [|exact O]].
  - intros f z I. apply G. apply in_map_iff. exists (f, z). split; [reflexivity|exact I].
  - intros f NI. apply K. rewrite M. exact NI.
Qed.

Lemma create_is t h a h1 k : step h (ONew t []) = (Ok (PRef a), h1) -> create t h k = k a h1.
Proof. intros E. unfold create. rewrite E. reflexivity. Qed.

Definition pair_up (fields : list string) (zs : list Z) : list (string * Z) := combine fields zs.

(** ** Nothing is sent *)

Lemma create_sent t h k : sent (create t h k) -> exists a h1, sent (k a h1).
Proof. unfold create. destruct (step h (ONew t [])) as [[[]|] h1]; cbn; try contradiction; eauto. Qed.
Lemma assign_sent a nm v h k : sent (assign a nm v h k) -> exists h1, sent (k h1).
Proof. unfold assign. destruct (step h (OSet a nm v)) as [[|] h1]; cbn; try contradiction; eauto. Qed.
Lemma attribute_sent a nm h k : sent (attribute a nm h k) -> exists v h1, sent (k v h1).
Proof. unfold attribute. destruct (step h (OGet a nm)) as [[|] h1]; cbn; try contradiction; eauto. Qed.
Lemma number_sent s k : sent (number s k) -> exists z, PathSpec.decimal_text s z /\ sent (k z).
Proof. unfold number. destruct (py_int 10 s) as [z|e] eqn:E; cbn; try contradiction. intros H. apply py_int10 in E. eauto. Qed.
Lemma numbers_sent l : forall k, sent (numbers l k) -> exists zs, Forall2 PathSpec.decimal_text l zs /\ sent (k zs).
Proof.
  induction l as [|s l IH]; intros k H; cbn [numbers] in H; [exists []; split; [constructor|exact H]|].
  apply number_sent in H as (z & T & H). apply IH in H as (zs & F & H). exists (z :: zs). split; [constructor; assumption|exact H].
Qed.
Lemma table_sent a rows : forall h k, sent (table a rows h k) -> exists d h1, map fst d = map fst rows /\ sent (k d h1).
Proof.
  induction rows as [|[key nm] rows IH]; intros h k H; cbn [table] in H; [exists [], h; split; [reflexivity|exact H]|].
  apply attribute_sent in H as (v & h1 & H). apply IH in H as (d & h2 & E & H). exists ((key, v) :: d), h2.
  cbn [map fst]. rewrite E. split; [reflexivity|exact H].
Qed.

(** ** Constants *)

Lemma constant_dget cs nm v : constant_is cs nm v -> dget String.eqb cs nm = Some v.
Proof.
  intros (pre & post & -> & NI). induction pre as [|[n z] pre IH]; cbn.
  - rewrite String.eqb_refl. reflexivity.
  - destruct (String.eqb_spec nm n) as [->|]; [exfalso; apply NI; left; reflexivity|]. apply IH. intros I. apply NI. right. exact I.
Qed.
Lemma has_dget cs rows key nm : has_constants cs rows -> In (key, nm) rows -> exists v, dget String.eqb cs nm = Some v.
Proof.
  intros H I. specialize (H key nm I). clear I. induction cs as [|[n z] cs IH]; cbn in *; [contradiction|].
  destruct (String.eqb_spec nm n) as [->|NE]; [eauto|]. apply IH. destruct H as [E|H]; [congruence|exact H].
Qed.
Definition value_of (cs : list (string * Z)) (nm : string) : Z := match dget String.eqb cs nm with Some v => v | None => 0%Z end.
Lemma table_is a full u fs cs d act extra rows : forall h k,
  nth_error h a = Some (CComp full u fs cs d act extra) -> has_constants cs rows ->
  table a rows h k = k (map (fun r => (fst r, PInt (value_of cs (snd r)))) rows) h.
Proof.
  induction rows as [|[key nm] rows IH]; intros h k E H; [reflexivity|]. cbn [table map fst snd].
  destruct (has_dget cs _ key nm H (or_introl eq_refl)) as (v & D).
  unfold attribute. cbn [step]. unfold getattr. rewrite E, D. unfold value_of at 1. rewrite D.
  apply IH; [exact E|]. intros key' nm' I. exact (H key' nm' (or_intror I)).
Qed.
Lemma attribute_is a full u fs cs d act extra nm v h k :
  nth_error h a = Some (CComp full u fs cs d act extra) -> constant_is cs nm v -> attribute a nm h k = k (PInt v) h.
Proof. intros E C. apply constant_dget in C. unfold attribute. cbn [step]. unfold getattr. rewrite E, C. reflexivity. Qed.

(** The cell of a new object. *)
Lemma fresh_cell h nm u fs cs a h1 : step h (ONew (AComp nm u fs cs) []) = (Ok (PRef a), h1) ->
  exists d, nth_error h1 a = Some (CComp nm u fs cs d None []).
Proof.
  cbn [step]. unfold new_object. cbn [alloc]. destruct (alloc_all _ h) as [slots h0]. cbn [init_fields]. intros E. injection E as <- <-.
  exists (List.length h0). rewrite nth_error_app2 by lia. replace (S (List.length h0) - List.length h0) with 1 by lia. reflexivity.
Qed.
Lemma set_cell h a nm fs cs d act extra f v w h2 : nth_error h a = Some (CComp nm false fs cs d act extra) ->
  integer_for fs cs (f, v) -> step h (OSet a f v) = (Ok w, h2) -> nth_error h2 a = Some (CComp nm false fs cs d act extra).
Proof.
  intros E (_ & C & i & k & n & cm & z & Ef & Ht & _ & Ev). cbn [fst snd] in C, Ef, Ev. subst v. cbn [step]. unfold setattr.
  rewrite E, (dget_none _ _ C), Ef. cbn [union_blocks andb].
  destruct (nth_error h d) as [[| |slots]|] eqn:Ed; try discriminate; destruct (prim_set h k n cm (PInt z)); try discriminate;
    intros X; injection X as <- <-; rewrite put_other by congruence; exact E.
Qed.
Lemma assign_step_cell a h nm fs cs d act extra f v kw h2 : nth_error h a = Some (CComp nm false fs cs d act extra) ->
  integer_for fs cs (f, v) -> assigned a h ((f, v) :: kw) h2 ->
  exists h1, (forall k, assign a f v h k = k h1) /\ assigned a h1 kw h2 /\ nth_error h1 a = Some (CComp nm false fs cs d act extra).
Proof.
  intros E I A. inversion A; subst. exists h1. split; [intros k; unfold assign; rewrite H5; reflexivity|]. split; [assumption|].
  exact (set_cell _ _ _ _ _ _ _ _ _ _ _ _ E I H5).
Qed.

(** ** Arrays of a new object *)
Lemma alloc_extends t h : extends h (snd (alloc t h)).
Proof. apply alloc_is_default. Qed.
Lemma alloc_all_array (fs : list (string * atype)) : forall i nm et mx h, nth_error fs i = Some (nm, AArr true et mx) ->
  extends h (snd (alloc_all (map (fun f => alloc (snd f)) fs) h)) /\
  exists b, nth_error (fst (alloc_all (map (fun f => alloc (snd f)) fs) h)) i = Some (SObj (PRef b)) /\
    nth_error (snd (alloc_all (map (fun f => alloc (snd f)) fs) h)) b = Some (CArr true et mx []).
Proof.
  assert (forall (fs : list (string * atype)) h, extends h (snd (alloc_all (map (fun f => alloc (snd f)) fs) h))) as EX.
  { clear. induction fs as [|f fs IH]; intros h; [apply extends_refl|]. cbn [map alloc_all].
    pose proof (alloc_extends (snd f) h) as X. destruct (alloc (snd f) h) as [s h1]. specialize (IH h1).
    destruct (alloc_all _ h1) as [ss h2]. cbn [snd] in *. exact (extends_trans _ _ _ X IH). }
  intros i nm et mx h E. split; [apply EX|]. revert i h E. induction fs as [|f fs IH]; intros [|i] h E; try discriminate.
  - injection E as ->. cbn [map alloc_all snd alloc]. pose proof (EX fs (h ++ [CArr true et mx []])) as (tl & X).
    destruct (alloc_all _ (h ++ [CArr true et mx []])) as [ss h2]. cbn [fst snd] in *. exists (List.length h). split; [reflexivity|].
    rewrite X, <- app_assoc, nth_error_app2, Nat.sub_diag by lia. reflexivity.
  - cbn [map alloc_all]. destruct (alloc (snd f) h) as [s h1]. destruct (IH i h1 E) as (b & A & B).
    destruct (alloc_all _ h1) as [ss h2]. cbn [fst snd] in *. exists b. split; assumption.
Qed.
Lemma fresh_array h nm fs cs a h1 f i et mx : step h (ONew (AComp nm false fs cs) []) = (Ok (PRef a), h1) ->
  dget String.eqb cs f = None -> find_field fs f = Some (i, AArr true et mx) ->
  exists b, field_array h1 a f b /\ open_field h1 a f /\ array_at h1 b et mx.
Proof.
  intros E C Ef. pose proof (fresh_cell _ _ _ _ _ _ _ E) as (d0 & Ea). revert E.
  cbn [step]. unfold new_object. cbn [alloc].
  destruct (alloc_all_array fs i f et mx h (find_field_in _ _ _ _ Ef)) as (_ & b & A & B).
  destruct (alloc_all _ h) as [slots h0]. cbn [fst snd init_fields] in *. intros E. injection E as <- <-.
  assert (nth_error (h0 ++ [CDict slots; CComp nm false fs cs (List.length h0) None []]) (S (List.length h0)) =
    Some (CComp nm false fs cs (List.length h0) None [])) as E1.
  { rewrite nth_error_app2 by lia. replace (S (List.length h0) - List.length h0) with 1 by lia. reflexivity. }
  assert (nth_error (h0 ++ [CDict slots; CComp nm false fs cs (List.length h0) None []]) (List.length h0) = Some (CDict slots)) as E2.
  { rewrite nth_error_app2, Nat.sub_diag by lia. reflexivity. }
  exists b. split; [|split].
  - do 12 eexists. split; [exact E1|]. split; [exact C|]. split; [exact Ef|]. split; [exact E2|exact A].
  - intros full u fs' cs' d act extra X U. rewrite E1 in X. injection X as _ <- _ _ _ _ _. discriminate.
  - exists true, []. rewrite nth_error_app1; [exact B|]. apply nth_error_Some. congruence.
Qed.

Section Commands.
  Variable class : string -> atype.
  Lemma main_SetBaud h l : main class h "SetBaud" l = SetBaud class h l.
  Proof. reflexivity. Qed.
  Lemma main_GetESCId h l : main class h "GetESCId" l = GetESCId class h l.
  Proof. reflexivity. Qed.
  Lemma main_GetInfo h l : main class h "GetInfo" l = GetInfo class h l.
  Proof. reflexivity. Qed.
  Lemma main_GetMaintenance h l : main class h "GetMaintenance" l = GetMaintenance class h l.
  Proof. reflexivity. Qed.
  Lemma main_GetMajorConfig h l : main class h "GetMajorConfig" l = GetMajorConfig class h l.
  Proof. reflexivity. Qed.
  Lemma main_SetID h l : main class h "SetID" l = SetID class h l.
  Proof. reflexivity. Qed.
  Lemma main_SetLED h l : main class h "SetLED" l = SetLED class h l.
  Proof. reflexivity. Qed.
  Lemma main_SetAngle h l : main class h "SetAngle" l = SetAngle class h l.
  Proof. reflexivity. Qed.
  Lemma main_SelfTest h l : main class h "SelfTest" l = SelfTest class h l.
  Proof. reflexivity. Qed.
  Lemma main_SetReportingFrequency h l : main class h "SetReportingFrequency" l = SetReportingFrequency class h l.
  Proof. reflexivity. Qed.
  Lemma main_SetDirection h l : main class h "SetDirection" l = SetDirection class h l.
  Proof. reflexivity. Qed.
  Lemma main_RawCommand h l : main class h "RawCommand" l = RawCommand class h l.
  Proof. reflexivity. Qed.
  Ltac dispatch := first [rewrite main_SetBaud; unfold SetBaud|rewrite main_GetESCId; unfold GetESCId|rewrite main_GetInfo; unfold GetInfo|rewrite main_GetMaintenance; unfold GetMaintenance|rewrite main_GetMajorConfig; unfold GetMajorConfig|rewrite main_SetID; unfold SetID|rewrite main_SetLED; unfold SetLED|rewrite main_SetAngle; unfold SetAngle|rewrite main_SelfTest; unfold SelfTest|rewrite main_SetReportingFrequency; unfold SetReportingFrequency|rewrite main_SetDirection; unfold SetDirection|rewrite main_RawCommand; unfold RawCommand].

  Lemma sends h command cls fields nm fs cs texts zs more : In (command, (cls, fields)) forms ->
    class cls = AComp nm false fs cs -> Forall2 PathSpec.decimal_text texts zs -> List.length texts = List.length fields ->
    Forall (integer_for fs cs) (map (fun e => (fst e, PInt (snd e))) (combine fields zs)) ->
    exists h' a, main class h command (texts ++ more) = Requests h' a /\ filled h (class cls) (combine fields zs) h' a.
  Proof.
    intros Hin C F L I.
    assert (NoDup (map fst (combine fields zs))) as ND.
    { assert (forall l : list string, NoDup l -> forall m : list Z, NoDup (map fst (combine l m))) as X.
      { clear. intros l N. induction N as [|x l NI N IH]; intros [|z m]; cbn; try constructor.
        - intros J. apply NI. apply in_map_iff in J as ((x', z') & <- & J). exact (in_combine_l _ _ _ _ J).
        - apply IH. }
      apply X. clear - Hin. cbn in Hin.
      repeat (destruct Hin as [E|Hin]; [injection E as <- <- <-; repeat constructor; cbn; intuition discriminate|]). contradiction. }
    destruct (made h nm fs cs (combine fields zs) I ND) as (a & h1 & h' & E & A & FI). rewrite <- C in E, FI.
    exists h', a. split; [|exact FI]. clear FI ND I.
    cbn [forms In] in Hin.
    repeat (destruct Hin as [X|Hin];
      [injection X as <- <- <-;
       repeat match goal with
         | H : List.length ?t = _ |- _ =>
             is_var t; destruct t as [|? ?]; cbn [List.length] in H; try discriminate H; try (injection H as H)
         end;
       repeat match goal with H : Forall2 _ _ _ |- _ => inversion H; subst; clear H end;
       dispatch;
       cbn [app combine map fst snd] in A |- *|]);
      try contradiction.
    all: rewrite (create_is _ _ _ _ _ E).
    all: repeat (erewrite number_is by eassumption;
                 let h2 := fresh "h2" in let K := fresh "K" in
                 apply assign_step in A as (h2 & K & A); rewrite K; clear K).
    all: apply assigned_end in A; subst; reflexivity.
  Qed.

  Lemma arguments_numbers h command n args i t : In (command, n) arity -> i < n -> nth_error args i = Some t ->
    sent (main class h command args) -> exists z, PathSpec.decimal_text t z.
  Proof.
    intros Hin L N SE. cbn [arity In] in Hin.
    repeat (destruct Hin as [X|Hin];
      [injection X as <- <-; revert SE; dispatch; intros SE;
       apply create_sent in SE as (a & h1 & SE)|]); try contradiction.
    1: apply table_sent in SE as (d & h2 & _ & SE).
    all: try lia.
    all: repeat match type of SE with
         | sent (match ?l with _ => _ end) => is_var l; destruct l as [|? ?]; try (cbn in SE; contradiction)
         | sent (number _ _) => apply number_sent in SE as (? & ? & SE)
         | sent (assign _ _ _ _ _) => apply assign_sent in SE as (? & SE)
         | sent (attribute _ _ _ _) => apply attribute_sent in SE as (? & ? & SE)
         | sent (table _ _ _ _) => apply table_sent in SE as (? & ? & _ & SE)
         | sent (numbers _ _) => apply numbers_sent in SE as (? & ? & SE)
         end.
    all: repeat match goal with H : Forall2 _ (_ :: _) _ |- _ => inversion H; subst; clear H end.
    all: do 3 (destruct i as [|i]; [cbn in N; injection N as <-; eauto; fail|cbn in N; try discriminate; try lia]); try lia.
  Qed.
  Lemma throttle_numbers h args t : In t args -> sent (main class h "RawCommand" args) -> exists z, PathSpec.decimal_text t z.
  Proof.
    intros I SE. revert SE. dispatch. intros SE. apply create_sent in SE as (a & h1 & SE). destruct args as [|x l]; [contradiction|].
    apply numbers_sent in SE as (zs & F & _). clear - I F. induction F as [|x0 y0 l0 zs0 T F IH]; [contradiction|].
    destruct I as [<-|I]; [eauto|exact (IH I)].
  Qed.

  Lemma usage h command n args : In (command, n) arity -> List.length args < n ->
    (forall cls, exists nm u fs cs, class cls = AComp nm u fs cs) ->
    (forall nm u fs cs, class "SetBaud.Request"%string = AComp nm u fs cs -> has_constants cs bauds) ->
    main class h command args = Prints.
  Proof.
    intros Hin L CL B.
    assert (forall cls k, (forall a h1 nm u fs cs d, class cls = AComp nm u fs cs ->
        nth_error h1 a = Some (CComp nm u fs cs d None []) -> k a h1 = Prints) -> create (class cls) h k = Prints) as CR.
    { intros cls k K. destruct (CL cls) as (nm & u & fs & cs & E).
      destruct (constructed h (class cls) [] ltac:(eauto)) as (a & h1 & ST & _). rewrite (create_is _ _ _ _ _ ST).
      rewrite E in ST. destruct (fresh_cell _ _ _ _ _ _ _ ST) as (d & D). exact (K a h1 nm u fs cs d E D). }
    cbn [arity In] in Hin.
    repeat (destruct Hin as [X|Hin];
      [injection X as <- <-; dispatch; try lia; apply CR; intros a h1 nm u fs cs d EC EA|]); try contradiction.
    1: rewrite (table_is _ _ _ _ _ _ _ _ _ _ _ EA (B _ _ _ _ EC)).
    all: repeat (destruct args as [|? args]; [reflexivity|cbn [List.length] in L; try lia]).
  Qed.

  Lemma baud_set h nm fs cs z const v s more : class "SetBaud.Request"%string = AComp nm false fs cs -> has_constants cs bauds ->
    In (z, const) bauds -> constant_is cs const v -> integer_for fs cs ("baud"%string, PInt v) -> PathSpec.decimal_text s z ->
    exists h' a, main class h "SetBaud" (s :: more) = Requests h' a /\
      filled h (AComp nm false fs cs) [("baud"%string, v)] h' a.
  Proof.
    intros C HC I CV IF T.
    destruct (made h nm fs cs [("baud"%string, v)]) as (a & h1 & h' & E & A & FI).
    { constructor; [exact IF|constructor]. } { repeat constructor. intros []. }
    exists h', a. split; [|exact FI]. destruct (fresh_cell _ _ _ _ _ _ _ E) as (d & Ea). rewrite <- C in E.
    dispatch. rewrite (create_is _ _ _ _ _ E), (table_is _ _ _ _ _ _ _ _ _ _ _ Ea HC), (number_is s z) by exact T.
    assert (value_of cs const = v) as V by (unfold value_of; rewrite (constant_dget _ _ _ CV); reflexivity).
    cbn [map fst snd] in A |- *. apply assign_step in A as (h2 & K & A). apply assigned_end in A. subst h2.
    cbn [bauds In] in I.
    repeat (destruct I as [X|I]; [injection X as <- <-; cbn [bauds rates map fst snd dget Z.eqb Pos.eqb]; rewrite V, K; reflexivity|]). contradiction.
  Qed.
  Lemma baud_other h nm fs cs z s more : class "SetBaud.Request"%string = AComp nm false fs cs -> has_constants cs bauds ->
    ~ In z (map fst bauds) -> PathSpec.decimal_text s z ->
    main class h "SetBaud" (s :: more) = Raises TypeError.
  Proof.
    intros C HC NI T. destruct (constructed h (AComp nm false fs cs) [] ltac:(eauto)) as (a & h1 & E & _).
    destruct (fresh_cell _ _ _ _ _ _ _ E) as (d & Ea). rewrite <- C in E.
    dispatch. rewrite (create_is _ _ _ _ _ E), (table_is _ _ _ _ _ _ _ _ _ _ _ Ea HC), (number_is s z) by exact T.
    cbn [bauds rates map fst snd dget]. cbn in NI.
    repeat match goal with |- context [Z.eqb z ?k] => destruct (Z.eqb_spec z k); [exfalso; apply NI; subst; tauto|] end.
    reflexivity.
  Qed.

  Lemma rate_set h nm fs cs z w v s t more id const : class "SetReportingFrequency.Request"%string = AComp nm false fs cs ->
    has_constants cs rates -> constant_is cs "OPTION_WRITE" w -> In (z, const) rates -> constant_is cs const v ->
    integer_for fs cs ("option"%string, PInt w) -> integer_for fs cs ("MSG_ID"%string, PInt id) ->
    integer_for fs cs ("rate"%string, PInt v) -> PathSpec.decimal_text s id -> PathSpec.decimal_text t z ->
    exists h' a, main class h "SetReportingFrequency" (s :: t :: more) = Requests h' a /\
      filled h (AComp nm false fs cs) [("option", w); ("MSG_ID", id); ("rate", v)]%string h' a.
  Proof.
    intros C HC CW I CV IO IM IR T1 T2.
    destruct (made h nm fs cs [("option", w); ("MSG_ID", id); ("rate", v)]%string) as (a & h1 & h' & E & A & FI).
    { constructor; [exact IO|]. constructor; [exact IM|]. constructor; [exact IR|constructor]. }
    { repeat constructor; cbn; intuition discriminate. }
    exists h', a. split; [|exact FI]. destruct (fresh_cell _ _ _ _ _ _ _ E) as (d & Ea). rewrite <- C in E.
    dispatch. rewrite (create_is _ _ _ _ _ E), (attribute_is _ _ _ _ _ _ _ _ _ _ _ _ Ea CW).
    cbn [map fst snd] in A.
    apply (assign_step_cell _ _ _ _ _ _ _ _ _ _ _ _ Ea IO) in A as (h2 & K & A & Ea2). rewrite K, (number_is s id) by exact T1. clear K.
    apply (assign_step_cell _ _ _ _ _ _ _ _ _ _ _ _ Ea2 IM) in A as (h3 & K & A & Ea3). rewrite K. clear K.
    rewrite (table_is _ _ _ _ _ _ _ _ _ _ _ Ea3 HC), (number_is t z) by exact T2.
    assert (value_of cs const = v) as V by (unfold value_of; rewrite (constant_dget _ _ _ CV); reflexivity).
    apply assign_step in A as (h4 & K & A). apply assigned_end in A. subst h4. cbn [map fst snd].
    cbn [rates In] in I.
    repeat (destruct I as [X|I]; [injection X as <- <-; cbn [bauds rates map fst snd dget Z.eqb Pos.eqb]; rewrite V, K; reflexivity|]). contradiction.
  Qed.
  Lemma rate_other h nm fs cs z w s t more id : class "SetReportingFrequency.Request"%string = AComp nm false fs cs ->
    has_constants cs rates -> constant_is cs "OPTION_WRITE" w -> ~ In z (map fst rates) ->
    integer_for fs cs ("option"%string, PInt w) -> integer_for fs cs ("MSG_ID"%string, PInt id) ->
    PathSpec.decimal_text s id -> PathSpec.decimal_text t z ->
    main class h "SetReportingFrequency" (s :: t :: more) = Raises TypeError.
  Proof.
    intros C HC CW NI IO IM T1 T2.
    destruct (made h nm fs cs [("option", w); ("MSG_ID", id)]%string) as (a & h1 & h' & E & A & _).
    { constructor; [exact IO|]. constructor; [exact IM|constructor]. }
    { repeat constructor; cbn; intuition discriminate. }
    destruct (fresh_cell _ _ _ _ _ _ _ E) as (d & Ea). rewrite <- C in E.
    dispatch. rewrite (create_is _ _ _ _ _ E), (attribute_is _ _ _ _ _ _ _ _ _ _ _ _ Ea CW).
    cbn [map fst snd] in A.
    destruct (assign_step_cell _ _ _ _ _ _ _ _ _ _ _ _ Ea IO A) as (h2 & K & A2 & Ea2). rewrite K, (number_is s id) by exact T1. clear K.
    destruct (assign_step_cell _ _ _ _ _ _ _ _ _ _ _ _ Ea2 IM A2) as (h3 & K & _ & Ea3). rewrite K. clear K.
    rewrite (table_is _ _ _ _ _ _ _ _ _ _ _ Ea3 HC), (number_is t z) by exact T2.
    cbn [bauds rates map fst snd dget]. cbn in NI.
    repeat match goal with |- context [Z.eqb z ?k] => destruct (Z.eqb_spec z k); [exfalso; apply NI; subst; tauto|] end.
    reflexivity.
  Qed.

  Lemma list_given h nm fs cs f i et mx zs a h1 : step h (ONew (AComp nm false fs cs) []) = (Ok (PRef a), h1) ->
    ~ In f (map fst cs) -> find_field fs f = Some (i, AArr true et mx) -> Forall (keeps et) (map PInt zs) ->
    if List.length zs <=? mx
    then exists h' b, (forall k, assign a f (PList (map PInt zs)) h1 k = k h') /\ field_array h' a f b /\ reads_as h' b (map PInt zs)
    else forall k, assign a f (PList (map PInt zs)) h1 k = Raises AttributeError.
  Proof.
    intros E C Ef K. destruct (fresh_array h nm fs cs a h1 f i et mx E (dget_none _ _ C) Ef) as (b & FA & OF & AA).
    destruct (assign_field h1 a f b et mx (PList (map PInt zs)) (map PInt zs) FA OF AA (or_introl eq_refl) ltac:(discriminate) K)
      as (h' & ES & FA' & _ & RA & _).
    rewrite map_length in ES. destruct (Nat.leb_spec (List.length zs) mx) as [LE|GT].
    - exists h', b. split; [intros k; unfold assign; cbn [step]; rewrite ES; reflexivity|]. split; [exact FA'|].
      rewrite firstn_all2 in RA by (rewrite map_length; exact LE). exact RA.
    - intros k. unfold assign. cbn [step]. rewrite ES. reflexivity.
  Qed.
  Lemma throttles h nm fs cs i et mx texts zs : class "RawCommand"%string = AComp nm false fs cs ->
    ~ In "command"%string (map fst cs) -> find_field fs "command" = Some (i, AArr true et mx) ->
    texts <> [] -> Forall2 PathSpec.decimal_text texts zs -> Forall (keeps et) (map PInt zs) ->
    if List.length texts <=? mx
    then exists h' a b, main class h "RawCommand" texts = Repeats h' a /\ field_array h' a "command" b /\ reads_as h' b (map PInt zs)
    else main class h "RawCommand" texts = Raises AttributeError.
  Proof.
    intros C NC Ef NE F K. assert (List.length texts = List.length zs) as L by (clear - F; induction F; cbn; congruence).
    destruct (constructed h (AComp nm false fs cs) [] ltac:(eauto)) as (a & h1 & E & _).
    pose proof (list_given h nm fs cs "command" i et mx zs a h1 E NC Ef K) as LS. rewrite <- C in E. rewrite L.
    assert (main class h "RawCommand" texts = assign a "command" (PList (map PInt zs)) h1 (fun h => Repeats h a)) as M.
    { dispatch. rewrite (create_is _ _ _ _ _ E). destruct texts as [|s l]; [contradiction|].
      rewrite (numbers_are _ zs _ F). reflexivity. }
    rewrite M. destruct (List.length zs <=? mx); [|apply LS].
    destruct LS as (h' & b & X & FA & RA). exists h', a, b. rewrite X. auto.
  Qed.
  Lemma esc_id h nm fs cs i et mx s z more : class "GetEscID"%string = AComp nm false fs cs ->
    ~ In "payload"%string (map fst cs) -> find_field fs "payload" = Some (i, AArr true et mx) -> 0 < mx ->
    PathSpec.decimal_text s z -> keeps et (PInt z) ->
    exists h' a b, main class h "GetESCId" (s :: more) = Broadcasts h' a /\ field_array h' a "payload" b /\ reads_as h' b [PInt z].
  Proof.
    intros C NC Ef P T K. destruct (constructed h (AComp nm false fs cs) [] ltac:(eauto)) as (a & h1 & E & _).
    pose proof (list_given h nm fs cs "payload" i et mx [z] a h1 E NC Ef ltac:(constructor; [exact K|constructor])) as LS. rewrite <- C in E.
    cbn [List.length map] in LS. rewrite (proj2 (Nat.leb_le 1 mx)) in LS by lia. destruct LS as (h' & b & X & FA & RA).
    exists h', a, b. split; [|auto]. dispatch. rewrite (create_is _ _ _ _ _ E), (number_is s z) by exact T. rewrite X. reflexivity.
  Qed.
  Lemma unknown h command args : ~ In command (map fst arity) -> main class h command args = Exits 1.
  Proof.
    intros NI. unfold main.
    assert (forall l : list (string * (heap -> list text -> outcome)), ~ In command (map fst l) -> dget String.eqb l command = None) as X.
    { induction l as [|[c f] l IH]; intros N; [reflexivity|]. cbn. destruct (String.eqb_spec command c) as [->|]; [exfalso; apply N; left; reflexivity|].
      apply IH. intros I. apply N. right. exact I. }
    rewrite X; [reflexivity|]. intros I. apply NI. cbn in *. tauto.
  Qed.
End Commands.
