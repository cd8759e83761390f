(** The definition parser and the loader: properties C59-C61 and C85-C88. *)
From Coq Require Import String.
From Verif.Base Require Import Prelude Bits.
From Verif.Model Require Import Types Prim Float Slcan Crc Parser.
From Verif.Spec Require Import CodecSpec FloatSpec ParserSpec.
From Verif.Proofs Require Import ParserText ParserFacts ParserMeaning ParserNorm ParserLoad.
Open Scope list_scope.
Open Scope N_scope.

(** ** Files for the examples *)

Definition disk := list (string * string).
Definition rd (fs : disk) (fn : text) : option text :=
  match find (fun f => text_eqb (txt (fst f)) fn) fs with
  | Some (_, s) => Some (txt s)
  | None => None
  end.
Definition ld (fs : disk) (dir : text) : option (list text) :=
  match filter (fun nm => negb (existsb (N.eqb slash) nm))
          (map (fun f => skipn (S (length dir)) (txt (fst f)))
             (filter (fun f => starts_with (dir ++ [slash]) (txt (fst f))) fs)) with
  | [] => None
  | names => Some names
  end.
(** Numbers and single characters. *)
Definition lit (e : text) : option pyv :=
  match e with
  | [39; c; 39] => Some (VStr [c])
  | _ => match py_int 0 e with Ok z => Some (VInt z) | Err _ => None end
  end.
Definition root : list text := [txt "/r/uavcan"].
Definition P (fs : disk) (fn : string) : res definition := parse root (ld fs) (rd fs) lit 4 (txt fn).

Definition nodes : disk := [
("/r/uavcan/protocol/341.NodeStatus.uavcan", "# Status of a node.
uint32 uptime_sec    # seconds
uint2 HEALTH_OK = 0
uint2 health
uint3 mode
uint3 sub_mode

uint16 vendor_specific_status_code
");
("/r/uavcan/protocol/1.GetNodeInfo.uavcan", "---
NodeStatus status
uavcan.Name[<=4] names
void3
");
("/r/uavcan/Name.uavcan", "@union
uint8[<=80] text
uavcan.protocol.NodeStatus status
uint8 LETTER = 'x'
int54 BIG = 5
float16 F = 65504
")]%string.
(** The same, written differently and with other constants. *)
Definition nodes2 : disk := [
("/r/uavcan/protocol/341.NodeStatus.uavcan", "

  uint32   uptime_sec
uint2 health#x
float16 X = -2
uint3 mode
uint3 sub_mode
uint16 vendor_specific_status_code");
("/r/uavcan/protocol/1.GetNodeInfo.uavcan", "---
NodeStatus status
uint8 K = 0x10
uavcan.Name[<=4] names # ok
void3");
("/r/uavcan/Name.uavcan", "@union # one of
uint8[<=80] text
uavcan.protocol.NodeStatus status")]%string.

(** The signatures that the library is known to compute. *)
Example parser_case :
  match P nodes "/r/uavcan/protocol/341.NodeStatus.uavcan" with
  | Ok d => d_name d = txt "uavcan.protocol.NodeStatus" /\ d_dtid d = Some 341%Z /\
            data_type_signature d = 0x0F0868D0C1A7C6F1
  | Err _ => False
  end.
Proof. vm_compute. auto. Qed.

(** ** C59: accepted definitions are well formed *)

(** All the rules of the statement hold. *)
Theorem C59_legal_partial search_dirs listdir read ev n fn d : parse search_dirs listdir read ev n fn = Ok d -> legal_definition d.
Proof. intros H. exact (proj1 (parse_sound _ _ _ _ n fn d H)). Qed.

(** And the codec's, unless there is an array of void. *)
Theorem C59_codec_partial search_dirs listdir read ev n fn d : parse search_dirs listdir read ev n fn = Ok d ->
  Forall (fun f => no_void_arrays (snd f)) (fields_of d) ->
  Forall (fun p => wf_type (part_layout p)) (parts (d_body d)).
Proof.
  intros H Hv. destruct (C59_legal_partial _ _ _ _ n fn d H) as (_ & Hp & _). rewrite Forall_forall in Hp, Hv.
  apply Forall_forall. intros p Hin. apply part_wf; [now apply Hp|].
  apply Forall_forall. intros f Hf. apply Hv. unfold fields_of. apply in_flat_map. eauto.
Qed.

(** ** C61: data type ids *)

(** Types of one kind that share an id have the same signature. *)
Theorem C61_consistent search_dirs listdir read ev depth search source ds :
  parse_namespaces search_dirs listdir read ev depth search source = Ok ds ->
  exists others,
    Forall2 (fun fn d => parse search_dirs listdir read ev depth fn = Ok d) search others /\
    Forall2 (fun fn d => parse search_dirs listdir read ev depth fn = Ok d) source ds /\
    forall d1 d2 z, In d1 (ds ++ others) -> In d2 (ds ++ others) ->
      is_service (d_body d1) = is_service (d_body d2) -> d_dtid d1 = Some z -> d_dtid d2 = Some z ->
      d_signature d1 = d_signature d2.
Proof. exact (namespaces_consistent _ _ _ _ depth search source ds). Qed.

(** Every type whose id is not 0 is found by it, or one with the same
    signature; missing: id 0. *)
Theorem C61_found_partial search_dirs listdir read ev depth search source ds t d z :
  parse_namespaces search_dirs listdir read ev depth search source = Ok ds ->
  In d ds -> d_dtid d = Some z -> z <> 0%Z ->
  exists d', dget key_eqb (t_ids (load t ds)) (is_service (d_body d), z) = Some d' /\
    d_dtid d' = Some z /\ is_service (d_body d') = is_service (d_body d) /\ d_signature d' = d_signature d.
Proof.
  intros H Hd Hz Hn. apply C61_consistent in H as (others & _ & _ & Hc).
  pose proof (load_ids t ds (is_service (d_body d)) z Hn) as K.
  destruct (dget key_eqb _ _) as [d'|]; [|exfalso; exact (K d Hd Hz eq_refl)].
  destruct K as [(H1 & H2 & H3)|(K & _)]; [|exfalso; exact (K d Hd Hz eq_refl)].
  exists d'. split; [reflexivity|]. split; [exact H2|]. split; [exact H3|].
  apply (Hc d' d z); auto using in_or_app.
Qed.

(** ** C85: the normalised definition determines the layout *)

Theorem C85_determines search_dirs listdir read ev n m fn1 fn2 d1 d2 : parse search_dirs listdir read ev n fn1 = Ok d1 -> parse search_dirs listdir read ev m fn2 = Ok d2 ->
  source_definition (d_name d1) (d_body d1) = source_definition (d_name d2) (d_body d2) ->
  d_name d1 = d_name d2 /\ same_body (d_body d1) (d_body d2).
Proof.
  intros H1 H2. apply source_determines.
  - exact (C59_legal_partial _ _ _ _ n fn1 d1 H1).
  - exact (C59_legal_partial _ _ _ _ m fn2 d2 H2).
Qed.

(** ** C87: constants *)

(** Up to one too many in signed types of 54 bits and more. *)
Theorem C87_constants_partial search_dirs listdir read ev n fn d c : (forall e x, ev e = Some (VFloat x) -> is_double x) ->
  parse search_dirs listdir read ev n fn = Ok d -> In c (flat_map p_consts (parts (d_body d))) ->
  const_within 1 c /\ ((k_type c = KInt -> (k_bits c <= 53)%nat) -> const_within 0 c).
Proof.
  intros Hev H Hc. pose proof (constants_within _ _ _ _ n fn d c Hev H Hc) as K. unfold range_slack in K.
  split.
  - revert K. unfold const_within. destruct (k_type c); try (intros (z & z' & H1 & H2 & H3); exists z, z'; intuition lia).
    + intros (z & z' & H1 & H2 & H3). exists z, z'. split; [exact H1|]. split; [exact H2|]. destruct (54 <=? k_bits c)%nat; lia.
    + intros K. exact K.
  - intros Hs. destruct (k_type c) eqn:E; try exact K. specialize (Hs eq_refl).
    replace (54 <=? k_bits c)%nat with false in K by lia. exact K.
Qed.

(** ** C88: nesting *)

(** If a full name belongs to one file. *)
Theorem C88_nesting_partial search_dirs listdir read ev n fn d f :
  (forall fn fn' nm v id v' id', name_from_filename search_dirs fn = Ok (nm, v, id) ->
     name_from_filename search_dirs fn' = Ok (nm, v', id') -> read fn <> None -> read fn' <> None -> fn = fn') ->
  parse search_dirs listdir read ev n fn = Ok d -> In f (fields_of d) -> ~ inside (d_name d) (snd f).
Proof. exact (not_inside_itself _ _ _ _ n fn d f). Qed.

(** What a file defines does not depend on the depth that is available. *)
Theorem C88_depth search_dirs listdir read ev n m fn d d' : parse search_dirs listdir read ev n fn = Ok d -> parse search_dirs listdir read ev m fn = Ok d' -> same_but_constants d d'.
Proof. exact (same_file _ _ _ _ n m fn d d'). Qed.
Print Assumptions C59_legal_partial.
Print Assumptions C59_codec_partial.
Print Assumptions C61_consistent.
Print Assumptions C61_found_partial.
Print Assumptions C85_determines.
Print Assumptions C87_constants_partial.
Print Assumptions C88_nesting_partial.
Print Assumptions C88_depth.

Definition no_void_arrays_b : ptype -> bool :=
  fix go t := match t with
              | QArr _ (QVoid _) _ => false
              | QArr _ et _ => go et
              | QMsg _ _ fs _ => forallb (fun f => go (snd f)) fs
              | _ => true
              end.
Lemma no_void_arrays_b_spec t : no_void_arrays_b t = true -> no_void_arrays t.
Proof.
  induction t as [k n cm|n|dyn et mx IH|nm u fs ov IH] using ptype_ind'; intros H; cbn in H.
  - constructor.
  - constructor.
  - destruct et; try discriminate; constructor; auto; intros (? & ?); discriminate.
  - constructor. apply Forall_forall. intros f Hf. rewrite forallb_forall in H. rewrite Forall_forall in IH.
    apply IH; auto.
Qed.

(** A service with nested types, an array, padding, a union and constants. *)
Example C59_case : exists d, P nodes "/r/uavcan/protocol/1.GetNodeInfo.uavcan" = Ok d /\
  length (fields_of d) = 3%nat /\ Forall (fun f => no_void_arrays (snd f)) (fields_of d) /\
  Forall (fun p => wf_type (part_layout p)) (parts (d_body d)).
Proof.
  destruct (P nodes "/r/uavcan/protocol/1.GetNodeInfo.uavcan") as [d|e] eqn:E; [|vm_compute in E; discriminate].
  exists d. split; [reflexivity|].
  assert (Hv : Forall (fun f => no_void_arrays (snd f)) (fields_of d)).
  { assert (Hb : forallb (fun f => no_void_arrays_b (snd f)) (fields_of d) = true)
      by (vm_compute in E; injection E as <-; vm_compute; reflexivity).
    apply Forall_forall. intros f Hf. apply no_void_arrays_b_spec. rewrite forallb_forall in Hb. now apply Hb. }
  split; [vm_compute in E; injection E as <-; reflexivity|]. split; [exact Hv|].
  exact (C59_codec_partial _ _ _ _ _ _ _ E Hv).
Qed.

(** An array of void is accepted, although there is no value the codec could
    encode for its elements; and so is one without a name. *)
Theorem C59_well_formed_refuted : exists search_dirs listdir read ev n fn d,
  parse search_dirs listdir read ev n fn = Ok d /\
  ~ Forall (fun p => wf_type (part_layout p)) (parts (d_body d)).
Proof.
  exists root, (ld [("/r/uavcan/Pad.uavcan", "void8[3] x")])%string, (rd [("/r/uavcan/Pad.uavcan", "void8[3] x")])%string, lit, 1%nat,
    (txt "/r/uavcan/Pad.uavcan").
  eexists. split; [vm_compute; reflexivity|]. intros H. apply Forall_cons_iff in H as (H & _).
  destruct H as (_ & ((_ & H & _) & _)). exact H.
Qed.
Print Assumptions C59_well_formed_refuted.

(** ** C60: what signatures depend on *)

(** Two sets of files that differ in comments, blank lines, spacing and
    constants give the same definitions, up to the constants, hence the same
    signatures; whatever the constants' expressions mean. *)
Theorem C60_signature search_dirs listdir read1 read2 ev1 ev2 n m fn d1 d2 :
  same_files read1 read2 ->
  parse search_dirs listdir read1 ev1 n fn = Ok d1 -> parse search_dirs listdir read2 ev2 m fn = Ok d2 ->
  same_but_constants d1 d2 /\
  d_signature d1 = d_signature d2 /\ data_type_signature d1 = data_type_signature d2.
Proof.
  intros Hf H1 H2. pose proof (parse_same _ _ _ _ _ _ Hf n m fn d1 d2 H1 H2) as K.
  split; [exact K|]. exact (same_signatures _ _ K).
Qed.
Print Assumptions C60_signature.

(** Comments, blank lines and spacing change nothing at all, not even whether
    the definition is accepted. *)
Theorem C60_layout search_dirs listdir read1 read2 ev n fn : same_layout_files read1 read2 ->
  parse search_dirs listdir read1 ev n fn = parse search_dirs listdir read2 ev n fn.
Proof. intros H. exact (layout_same _ _ _ _ _ H n fn). Qed.
Print Assumptions C60_layout.

(** Every text can be read as lines of words, and the words are the ones the
    parser works with. *)
Theorem C60_every_text s : exists L, written L s /\ tokenize s = filter nonblank L.
Proof.
  eexists. split; [apply every_text_written|]. exact (written_tokens _ _ (every_text_written s)).
Qed.
Print Assumptions C60_every_text.

Lemma same_code_by_tokens a b C :
  code (map (fun line => words (strip_comment line)) (splitlines a)) C ->
  code (map (fun line => words (strip_comment line)) (splitlines b)) C -> same_code a b.
Proof. intros Ha Hb. eexists _, _, C. eauto using every_text_written. Qed.
Fixpoint code_of (L : list (list text)) : list (list text) :=
  match L with
  | [] => []
  | l :: L' => if nonblank l && negb (Nat.leb 3 (length (snd (uncast l)))) then l :: code_of L' else code_of L'
  end.
Lemma code_of_spec L : code L (code_of L).
Proof.
  induction L as [|l L IH]; cbn [code_of]; [constructor|]. destruct l as [|w l]; cbn [nonblank andb].
  - constructor; [now left|exact IH].
  - destruct (Nat.leb_spec 3 (length (snd (uncast (w :: l))))) as [H|H]; cbn [negb].
    + constructor; [right; now apply constant_line_uncast|exact IH].
    + constructor; [discriminate|rewrite constant_line_uncast; lia|exact IH].
Qed.
(** The example files. *)
Lemma nodes_same : same_files (rd nodes) (rd nodes2).
Proof.
  intros fn. unfold rd, nodes, nodes2. cbn [find fst].
  repeat match goal with |- context [text_eqb ?a fn] => destruct (text_eqb a fn) end; try exact I;
    (eapply same_code_by_tokens; [apply code_of_spec|]);
    match goal with |- code ?L ?C => assert (K : C = code_of L) by (vm_compute; reflexivity); rewrite K; apply code_of_spec end.
Qed.
Example C60_case : exists d1 d2,
  same_files (rd nodes) (rd nodes2) /\
  P nodes "/r/uavcan/protocol/1.GetNodeInfo.uavcan" = Ok d1 /\
  parse root (ld nodes) (rd nodes2) lit 4 (txt "/r/uavcan/protocol/1.GetNodeInfo.uavcan") = Ok d2 /\
  d1 <> d2 /\ data_type_signature d1 = data_type_signature d2.
Proof.
  eexists _, _. split; [exact nodes_same|]. split; [vm_compute; reflexivity|]. split; [vm_compute; reflexivity|].
  split; [discriminate|]. vm_compute. reflexivity.
Qed.
Example C60_layout_case : same_layout_files (rd [("a", "uint8 a # b

  void4 #")])%string (rd [("a", "   uint8  a
void4")])%string.
Proof.
  intros fn. unfold rd. cbn [find fst]. destruct (text_eqb (txt "a") fn); [|exact I].
  eexists _, _. split; [apply every_text_written|]. split; [apply every_text_written|]. vm_compute. reflexivity.
Qed.

(** ** C61, continued *)

Definition ids : disk := [
("/r/uavcan/100.Foo.uavcan", "uint8 a");
("/r/uavcan/100.Foo.1.2.uavcan", "uint8 a # again");
("/r/uavcan/100.Ask.uavcan", "uint8 a
---");
("/r/uavcan/0.Nil.uavcan", "uint8 b")]%string.
Definition all_files (fs : disk) : list text := map (fun f => txt (fst f)) fs.
Example C61_case : exists ds, parse_namespaces root (ld ids) (rd ids) lit 2 [] (all_files ids) = Ok ds /\
  length ds = 4%nat /\ exists d1 d2, In d1 ds /\ In d2 ds /\ d1 <> d2 /\ d_dtid d1 = d_dtid d2 /\
    is_service (d_body d1) = is_service (d_body d2) /\ d_signature d1 = d_signature d2.
Proof.
  eexists. split; [vm_compute; reflexivity|]. split; [reflexivity|]. eexists _, _.
  split; [left; reflexivity|]. split; [right; left; reflexivity|]. split; [discriminate|].
  split; [reflexivity|]. split; [reflexivity|]. vm_compute. reflexivity.
Qed.
(** Two messages of the same id that differ are refused. *)
Example C61_refused_case :
  parse_namespaces root (ld ids)
    (rd (ids ++ [("/r/uavcan/100.Bar.uavcan", "uint8 b")]%string)) lit 2 [] (all_files ids ++ [txt "/r/uavcan/100.Bar.uavcan"])
  = Err DsdlException.
Proof. vm_compute. reflexivity. Qed.

(** A type with id 0 is accepted but not found. *)
Theorem C61_zero_refuted : exists search_dirs listdir read ev depth source ds d,
  parse_namespaces search_dirs listdir read ev depth [] source = Ok ds /\ In d ds /\ d_dtid d = Some 0%Z /\
  dget key_eqb (t_ids (load {| t_names := []; t_ids := [] |} ds)) (is_service (d_body d), 0%Z) = None.
Proof.
  exists root, (ld ids), (rd ids), lit, 2%nat, (all_files ids). eexists _, _.
  split; [vm_compute; reflexivity|]. split; [right; right; right; left; reflexivity|].
  split; [reflexivity|]. vm_compute. reflexivity.
Qed.
Print Assumptions C61_zero_refuted.

(** Two calls of [load_dsdl] are not checked against each other: two messages
    of one id with different signatures are both known by name afterwards. *)
Theorem C61_two_loads_refuted : exists search_dirs listdir read ev depth source1 source2 ds1 ds2 d1 d2 z,
  parse_namespaces search_dirs listdir read ev depth [] source1 = Ok ds1 /\
  parse_namespaces search_dirs listdir read ev depth [] source2 = Ok ds2 /\
  let t := load (load {| t_names := []; t_ids := [] |} ds1) ds2 in
  dget text_eqb (t_names t) (d_name d1) = Some d1 /\ dget text_eqb (t_names t) (d_name d2) = Some d2 /\
  is_service (d_body d1) = is_service (d_body d2) /\ d_dtid d1 = Some z /\ d_dtid d2 = Some z /\
  d_signature d1 <> d_signature d2.
Proof.
  set (fs := [("/r/uavcan/100.Foo.uavcan", "uint8 a"); ("/r/uavcan/100.Bar.uavcan", "uint8 b")]%string).
  exists root, (ld fs), (rd fs), lit, 2%nat, [txt "/r/uavcan/100.Foo.uavcan"], [txt "/r/uavcan/100.Bar.uavcan"].
  eexists _, _, _, _, 100%Z. split; [vm_compute; reflexivity|]. split; [vm_compute; reflexivity|].
  cbv zeta.
  match goal with |- dget _ (t_names ?t) _ = _ /\ _ => let t' := eval vm_compute in t in change t with t' end.
  split; [instantiate (1 := {| d_name := txt "uavcan.Foo"; d_dtid := Some 100%Z; d_version := None;
     d_body := Message {| p_fields := [(Some (txt "a"), QPrim KUint 8 Saturated)]; p_consts := []; p_union := false |};
     d_override := None |}); reflexivity|].
  split; [instantiate (1 := {| d_name := txt "uavcan.Bar"; d_dtid := Some 100%Z; d_version := None;
     d_body := Message {| p_fields := [(Some (txt "b"), QPrim KUint 8 Saturated)]; p_consts := []; p_union := false |};
     d_override := None |}); reflexivity|].
  split; [reflexivity|]. split; [reflexivity|]. split; [reflexivity|]. vm_compute. discriminate.
Qed.
Print Assumptions C61_two_loads_refuted.

(** ** C85, continued *)

Example C85_case : exists d1 d2,
  P nodes "/r/uavcan/Name.uavcan" = Ok d1 /\ P nodes2 "/r/uavcan/Name.uavcan" = Ok d2 /\ d1 <> d2 /\
  source_definition (d_name d1) (d_body d1) = source_definition (d_name d2) (d_body d2) /\
  source_definition (d_name d1) (d_body d1) =
    txt "uavcan.Name
@union
saturated uint8[<=80] text
uavcan.protocol.NodeStatus status".
Proof.
  eexists _, _. split; [vm_compute; reflexivity|]. split; [vm_compute; reflexivity|].
  split; [discriminate|]. split; vm_compute; reflexivity.
Qed.

(** ** C86: names *)

(** Every type that was loaded is found by its name: a type of that name; and
    the one itself, if names differ. Missing: two files of the same name. *)
Theorem C86_names_partial t ds d : In d ds ->
  exists d', dget text_eqb (t_names (load t ds)) (d_name d) = Some d' /\ In d' ds /\ d_name d' = d_name d.
Proof.
  intros Hd. pose proof (load_names t ds (d_name d)) as K. apply (in_map d_name) in Hd.
  destruct (dget text_eqb _ _) as [d'|]; [|contradiction]. destruct K as [(H1 & H2)|(K & _)]; [|contradiction].
  exists d'. auto.
Qed.
Theorem C86_unique_partial t ds d : In d ds -> NoDup (map d_name ds) ->
  dget text_eqb (t_names (load t ds)) (d_name d) = Some d.
Proof.
  intros Hd Hn. destruct (C86_names_partial t ds d Hd) as (d' & E & Hd' & En). rewrite E. f_equal.
  clear E. revert Hd Hd' En. induction ds as [|x ds IH]; [intros []|]. cbn [map] in Hn.
  apply NoDup_cons_iff in Hn as (Hx & Hn). intros [->|Hd] [->|Hd'] En; auto.
  - exfalso. apply Hx. rewrite <- En. now apply in_map.
  - exfalso. apply Hx. rewrite En. now apply in_map.
Qed.
Print Assumptions C86_names_partial.
Print Assumptions C86_unique_partial.
Example C86_case : exists ds, parse_namespaces root (ld nodes) (rd nodes) lit 4 [] (all_files nodes) = Ok ds /\
  length ds = 3%nat /\ map d_name ds = [txt "uavcan.protocol.NodeStatus"; txt "uavcan.protocol.GetNodeInfo"; txt "uavcan.Name"].
Proof. eexists. split; [vm_compute; reflexivity|]. split; reflexivity. Qed.

(** Two files of the same full name are accepted; one of the two types cannot
    be found by its name. *)
Definition twice : disk := [
("/r/uavcan/Foo.uavcan", "uint8 a"); ("/r/uavcan/100.Foo.uavcan", "Foo x")]%string.
Theorem C86_names_refuted : exists search_dirs listdir read ev depth source ds d,
  parse_namespaces search_dirs listdir read ev depth [] source = Ok ds /\ In d ds /\
  dget text_eqb (t_names (load {| t_names := []; t_ids := [] |} ds)) (d_name d) <> Some d.
Proof.
  exists root, (ld twice), (rd twice), lit, 3%nat, (all_files twice). eexists _, _.
  split; [vm_compute; reflexivity|]. split; [left; reflexivity|]. vm_compute. discriminate.
Qed.
Print Assumptions C86_names_refuted.

(** ** C87, continued *)

Example C87_case : exists d c1 c2 c3, P nodes "/r/uavcan/Name.uavcan" = Ok d /\
  p_consts (match d_body d with Message p => p | Service p _ => p end) = [c1; c2; c3] /\
  k_value c1 = CInt 120 /\ k_value c2 = CInt 5 /\ const_units (k_value c3) = Some max16.
Proof.
  eexists _, _, _, _. split; [vm_compute; reflexivity|]. split; [reflexivity|].
  split; [reflexivity|]. split; [reflexivity|]. vm_compute. reflexivity.
Qed.
(** A constant its type cannot represent. *)
Theorem C87_constants_refuted : exists search_dirs listdir read ev n fn d c,
  (forall e x, ev e = Some (VFloat x) -> is_double x) /\
  parse search_dirs listdir read ev n fn = Ok d /\ In c (flat_map p_consts (parts (d_body d))) /\
  ~ const_within 0 c.
Proof.
  set (fs := [("/r/uavcan/K.uavcan", "int64 K = 0x8000000000000000")]%string).
  exists root, (ld fs), (rd fs), lit, 1%nat, (txt "/r/uavcan/K.uavcan"). eexists _, _.
  split. { intros e x. unfold lit. repeat (match goal with |- context [match ?y with _ => _ end] => destruct y end); discriminate. }
  split; [vm_compute; reflexivity|]. split; [left; reflexivity|].
  intros (z & z' & Ez & Hf & Hd). cbn [k_value] in Ez. injection Ez as <-. cbn in Hf. lia.
Qed.
Print Assumptions C87_constants_refuted.

(** ** C88, continued *)

(** A type that has a field of its own name. *)
Theorem C88_nesting_refuted : exists search_dirs listdir read ev n fn d f,
  parse search_dirs listdir read ev n fn = Ok d /\ In f (fields_of d) /\ inside (d_name d) (snd f).
Proof.
  exists root, (ld twice), (rd twice), lit, 3%nat, (txt "/r/uavcan/100.Foo.uavcan"). eexists _, _.
  split; [vm_compute; reflexivity|]. split; [left; reflexivity|]. apply inside_here.
Qed.
Print Assumptions C88_nesting_refuted.

(** The hypothesis of [C88_nesting_partial] holds of the example files. *)
Lemma rd_in fs fn : rd fs fn <> None -> In fn (all_files fs).
Proof.
  unfold rd. destruct (find _ fs) as [[a s]|] eqn:E; [|congruence]. intros _.
  apply find_some in E as (E1 & E2). apply text_eqb_eq in E2. subst fn. unfold all_files.
  apply (in_map (fun f => txt (fst f)) _ _ E1).
Qed.
Example C88_case :
  (forall fn fn' nm v id v' id', name_from_filename root fn = Ok (nm, v, id) ->
     name_from_filename root fn' = Ok (nm, v', id') -> rd nodes fn <> None -> rd nodes fn' <> None -> fn = fn') /\
  exists d f nm, P nodes "/r/uavcan/protocol/1.GetNodeInfo.uavcan" = Ok d /\ In f (fields_of d) /\ inside nm (snd f).
Proof.
  split.
  - intros fn fn' nm v id v' id' H H' R R'. apply rd_in in R, R'.
    destruct R as [<-|[<-|[<-|[]]]], R' as [<-|[<-|[<-|[]]]]; try reflexivity;
      vm_compute in H, H'; injection H as <- _ _; discriminate H'.
  - eexists _, _, _. split; [vm_compute; reflexivity|]. split; [left; reflexivity|]. apply inside_here.
Qed.
