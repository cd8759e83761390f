(** Properties of message objects: C54, C55, C56, C57, C58, C82, C83, C84. *)
From Coq Require Import String.
From Verif.Base Require Import Prelude Bits.
From Verif.Model Require Import BitCodec Types Codec Prim Float Utf8 ObjectApi.
From Verif.Spec Require Import PrimSpec CodecSpec ObjectSpec.
From Verif.Proofs Require Import CodecFacts CodecTop PrimFacts Utf8Facts ObjectFacts ObjectTop
  ObjectArrays ObjectText ObjectUnions ObjectMore.
Open Scope list_scope.

(** Types and objects for the examples. *)
Definition byte_t := APrim KUint 8 Saturated.
Definition inner_t := AComp "ns.Inner" false [("x", byte_t); ("a", AArr true byte_t 4)]%string [].
Definition outer_t :=
  AComp "ns.Outer" false [("f", inner_t); ("n", APrim KInt 16 Saturated)]%string [("K", 7%Z)]%string.
Definition union_t :=
  AComp "ns.Union" true [("p", byte_t); ("q", APrim KInt 16 Saturated)]%string [("K", 7%Z)]%string.
(** 0: array of the inner object of [outer] (2), 4: [outer]; 5: array of
    [inner], 7: [inner]; 9: a union. *)
Definition objects : heap := run [] [ONew outer_t []; ONew inner_t []; ONew union_t []].
Definition filled : heap := run objects [OAppend 5 (PInt 10); OAppend 5 (PInt 20)].

Example objects_there : object_at objects 4 outer_t None /\ object_at objects 7 inner_t None /\
  object_at objects 9 union_t None /\ length objects = 10.
Proof.
  split; [eexists; eexists; reflexivity|]. split; [eexists; eexists; reflexivity|].
  split; [eexists; eexists; reflexivity|reflexivity].
Qed.
Example objects_fine : no_dangling objects.
Proof. apply run_no_dangling; [apply nil_no_dangling|]. repeat constructor. Qed.
Example filled_reads : array_at filled 5 byte_t 4 /\ reads_as filled 5 [PInt 10; PInt 20].
Proof.
  split; [eexists; eexists; reflexivity|].
  apply (reads_items filled 5 true byte_t 4 [SPrim (py_format_b 8 10); SPrim (py_format_b 8 20)] _ eq_refl).
  repeat constructor.
Qed.

(** ** C54 *)

(** A program that builds and changes objects never makes an array longer
    than its type allows; *)
Theorem C54_sizes : forall ops, legal_run [] ops -> sizes_within (run [] ops).
Proof. exact program_sizes. Qed.
Print Assumptions C54_sizes.
Theorem C54_sizes_kept : forall h ops, no_dangling h -> sizes_within h -> legal_run h ops ->
  sizes_within (run h ops).
Proof. exact run_keeps_sizes. Qed.
Print Assumptions C54_sizes_kept.
(** an operation on a single element that raises changes nothing; *)
Theorem C54_rejected : forall h o e h', element_op o = true -> step h o = (Err e, h') -> h' = h.
Proof. exact rejected_unchanged. Qed.
Print Assumptions C54_rejected.
(** the others do what they do to a list, as long as there is room, *)
Theorem C54_insert : forall h a et mx vs i v,
  array_at h a et mx -> reads_as h a vs -> length vs < mx -> (i < Z.of_nat mx)%Z -> keeps et v ->
  exists h', step h (OInsert a i v) = (Ok PNone, h') /\ array_at h' a et mx /\
    reads_as h' a (py_insert i v vs) /\ forall b, b <> a -> nth_error h' b = nth_error h b.
Proof. exact insert_effect. Qed.
Print Assumptions C54_insert.
Theorem C54_append : forall h a et mx vs v,
  array_at h a et mx -> reads_as h a vs -> length vs < mx -> keeps et v ->
  exists h', step h (OAppend a v) = (Ok PNone, h') /\ array_at h' a et mx /\
    reads_as h' a (vs ++ [v]) /\ forall b, b <> a -> nth_error h' b = nth_error h b.
Proof. exact append_effect. Qed.
Print Assumptions C54_append.
Theorem C54_replace : forall h a et mx vs i v,
  array_at h a et mx -> reads_as h a vs -> length vs <= mx -> in_bounds i vs -> keeps et v ->
  exists h', step h (OSetItem a i v) = (Ok PNone, h') /\ array_at h' a et mx /\
    reads_as h' a (py_replace i v vs) /\ forall b, b <> a -> nth_error h' b = nth_error h b.
Proof. exact setitem_effect. Qed.
Print Assumptions C54_replace.
Theorem C54_delete : forall h a et mx vs i,
  array_at h a et mx -> reads_as h a vs -> in_bounds i vs ->
  exists h', step h (ODel a i) = (Ok PNone, h') /\
    step h (OPop a i) = (arr_getitem h a i, h') /\ array_at h' a et mx /\
    reads_as h' a (py_delete i vs) /\ forall b, b <> a -> nth_error h' b = nth_error h b.
Proof. exact delitem_effect. Qed.
Print Assumptions C54_delete.
Theorem C54_delete_slice : forall h a et mx vs lo hi,
  array_at h a et mx -> reads_as h a vs ->
  exists h', step h (ODelSlice a lo hi) = (Ok PNone, h') /\ array_at h' a et mx /\
    reads_as h' a (py_delete_slice lo hi vs) /\ forall b, b <> a -> nth_error h' b = nth_error h b.
Proof. exact delslice_effect. Qed.
Print Assumptions C54_delete_slice.
Theorem C54_reverse : forall h a et mx vs,
  array_at h a et mx -> reads_as h a vs -> length vs <= mx -> Forall (keeps et) vs ->
  exists h', step h (OReverse a) = (Ok PNone, h') /\ array_at h' a et mx /\
    reads_as h' a (rev vs) /\ forall b, b <> a -> nth_error h' b = nth_error h b.
Proof. exact reverse_effect. Qed.
Print Assumptions C54_reverse.
(** and are refused when there is none, or when the index is out of bounds. *)
Theorem C54_full : forall h a et mx vs i v, array_at h a et mx -> reads_as h a vs -> length vs = mx ->
  step h (OInsert a i v) = (Err IndexError, h) /\ step h (OAppend a v) = (Err IndexError, h).
Proof. exact full_refuses. Qed.
Print Assumptions C54_full.
Theorem C54_out_of_bounds : forall h a et mx vs i v, array_at h a et mx -> reads_as h a vs -> ~ in_bounds i vs ->
  step h (OSetItem a i v) = (Err IndexError, h) /\ step h (ODel a i) = (Err IndexError, h) /\
  step h (OPop a i) = (Err IndexError, h).
Proof. exact out_of_bounds. Qed.
Print Assumptions C54_out_of_bounds.

Example C54_program : legal_run [] [ONew inner_t []; OExtend 0 (PList (repeat (PInt 1) 9)); OAppend 0 (PInt 3)] /\
  arr_len (run [] [ONew inner_t []; OExtend 0 (PList (repeat (PInt 1) 9)); OAppend 0 (PInt 3)]) 0 = Ok 4.
Proof. split; [|vm_compute; reflexivity]. repeat constructor. Qed.
Example C54_rejected_case : step filled (OInsert 5 0 (PStr [65%N])) = (Err TypeError, filled).
Proof. vm_compute. reflexivity. Qed.
Example C54_insert_case : keeps byte_t (PInt 15) /\ (-1 < 4)%Z /\
  arr_getitem (snd (step filled (OInsert 5 (-1) (PInt 15)))) 5 1 = Ok (PInt 15) /\
  py_insert (-1) (PInt 15) [PInt 10; PInt 20] = [PInt 10; PInt 15; PInt 20].
Proof.
  split; [|split; [lia|split; vm_compute; reflexivity]].
  split; [cbn; lia|]. exists 15%Z. split; [reflexivity|]. unfold representable. cbn. lia.
Qed.
Example C54_replace_case : in_bounds (-2) [PInt 10; PInt 20] /\
  py_replace (-2) (PInt 5) [PInt 10; PInt 20] = [PInt 5; PInt 20] /\
  arr_getitem (snd (step filled (OSetItem 5 (-2) (PInt 5)))) 5 0 = Ok (PInt 5).
Proof. split; [unfold in_bounds; cbn; lia|split; vm_compute; reflexivity]. Qed.
Example C54_delete_case : py_delete (-2) [PInt 10; PInt 20] = [PInt 20] /\
  arr_getitem (snd (step filled (ODel 5 (-2)))) 5 0 = Ok (PInt 20).
Proof. split; vm_compute; reflexivity. Qed.
Example C54_delete_slice_case :
  py_delete_slice (Some (-1)%Z) None [PInt 10; PInt 20] = [PInt 10] /\
  py_delete_slice (Some 1%Z) (Some 0%Z) [PInt 10; PInt 20] = [PInt 10; PInt 20] /\
  arr_len (snd (step filled (ODelSlice 5 (Some (-1)%Z) None))) 5 = Ok 1.
Proof. repeat split; vm_compute; reflexivity. Qed.
Example C54_reverse_case : let h := run filled [OAppend 5 (PInt 30); OReverse 5] in
  Forall (keeps byte_t) [PInt 10; PInt 20; PInt 30] /\
  map (arr_getitem h 5) [0; 1; 2]%Z = [Ok (PInt 30); Ok (PInt 20); Ok (PInt 10)].
Proof.
  split; [|vm_compute; reflexivity].
  repeat constructor; cbn; try lia; eexists; (split; [reflexivity|unfold representable; cbn; lia]).
Qed.
Example C54_full_case : let h := run filled [OAppend 5 (PInt 1); OAppend 5 (PInt 2)] in
  array_at h 5 byte_t 4 /\ arr_len h 5 = Ok 4 /\ step h (OAppend 5 (PInt 3)) = (Err IndexError, h).
Proof. split; [eexists; eexists; reflexivity|split; vm_compute; reflexivity]. Qed.
Example C54_out_case : ~ in_bounds 2 [PInt 10; PInt 20] /\ step filled (ODel 5 2) = (Err IndexError, filled).
Proof. split; [unfold in_bounds; cbn; lia|vm_compute; reflexivity]. Qed.

(** ** C55

    The full statement is: after [msg.field = value] the field reads as the
    value did, also if the value is the field itself. *)

(** It is false: an array assigned to itself becomes empty, without an
    exception. *)
Theorem C55_self_assignment_refuted : exists h a nm b vs h',
  no_dangling h /\ field_array h a nm b /\ open_field h a nm /\ reads_as h b vs /\ vs <> [] /\
  step h (OSet a nm (PRef b)) = (Ok PNone, h') /\ reads_as h' b [].
Proof.
  exists filled, 7, "a"%string, 5, [PInt 10; PInt 20], (run filled [OSet 7 "a" (PRef 5)]).
  split. { apply run_no_dangling; [exact objects_fine|]. repeat constructor. }
  split. { do 12 eexists. split; [reflexivity|]. repeat (split; [reflexivity|]). reflexivity. }
  split. { intros full u fs cs d act ex H Hu. injection H as <- <- <- <- <- <- <-. discriminate. }
  split; [apply filled_reads|]. split; [discriminate|]. split; [vm_compute; reflexivity|].
  apply (reads_items _ 5 true byte_t 4 []); [vm_compute; reflexivity|constructor].
Qed.
Print Assumptions C55_self_assignment_refuted.

(** It is so for every array field in every state, *)
Theorem C55_self_assignment_empties : forall h a nm b et mx,
  field_array h a nm b -> open_field h a nm -> array_at h b et mx ->
  exists h', step h (OSet a nm (PRef b)) = (Ok PNone, h') /\ array_at h' b et mx /\ reads_as h' b [].
Proof. exact self_assign. Qed.
Print Assumptions C55_self_assignment_empties.
(** in particular for [msg.field += vs], which Python takes as
    [t = msg.field; t.extend(vs); msg.field = t]: the field has the old and the
    new items for a moment and is empty in the end. *)
Theorem C55_augmented_empties : forall h a nm b et mx vs0 vs,
  field_array h a nm b -> open_field h a nm -> array_at h b et mx -> reads_as h b vs0 ->
  Forall (keeps et) vs -> length vs0 + length vs <= mx ->
  exists h1 h2 h3, step h (OGet a nm) = (Ok (PRef b), h1) /\
    step h1 (OExtend b (PList vs)) = (Ok PNone, h2) /\ reads_as h2 b (vs0 ++ vs) /\
    step h2 (OSet a nm (PRef b)) = (Ok PNone, h3) /\ reads_as h3 b [].
Proof. exact augmented. Qed.
Print Assumptions C55_augmented_empties.
Example C55_augmented_case :
  let h2 := run filled [OGet 7 "a"; OExtend 5 (PList [PInt 30])] in
  field_array filled 7 "a" 5 /\ arr_len h2 5 = Ok 3 /\
  arr_len (run h2 [OSet 7 "a" (PRef 5)]) 5 = Ok 0.
Proof.
  split. { do 12 eexists. split; [reflexivity|]. repeat (split; [reflexivity|]). reflexivity. }
  split; vm_compute; reflexivity.
Qed.

(** It is true of every other value that the elements can hold: the field
    reads as the value did, if that fits. If it does not, the field holds the
    beginning of it and [AttributeError] is raised. The value itself is not
    changed. Missing: the field itself. *)
Theorem C55_assignment_partial : forall h a nm b et mx v vs,
  field_array h a nm b -> open_field h a nm -> array_at h b et mx ->
  yields h v vs -> v <> PRef b -> Forall (keeps et) vs ->
  exists h', step h (OSet a nm v) = ((if length vs <=? mx then Ok PNone else Err AttributeError), h') /\
    field_array h' a nm b /\ array_at h' b et mx /\ reads_as h' b (firstn mx vs) /\
    (forall c, v = PRef c -> reads_as h' c vs).
Proof. exact assign_field. Qed.
Print Assumptions C55_assignment_partial.
Example C55_case : yields filled (PRef 5) [PInt 10; PInt 20] /\ PRef 5 <> PRef 0 /\
  field_array filled 2 "a" 0 /\ arr_getitem (snd (step filled (OSet 2 "a" (PRef 5)))) 0 1 = Ok (PInt 20).
Proof.
  split. { right. exists 5, byte_t, 4. split; [reflexivity|]. apply filled_reads. }
  split; [discriminate|]. split; [|vm_compute; reflexivity].
  do 12 eexists. split; [reflexivity|]. repeat (split; [reflexivity|]). reflexivity.
Qed.

(** ** C56

    The full statement is: after [outer.field = inner], no change of [inner]
    changes [outer]. *)

(** It is false: the copy that is stored shares its fields with [inner]. *)
Theorem C56_copy_refuted : exists h outer inner f x h1 h2,
  no_dangling h /\
  step h (OSet outer f (PRef inner)) = (Ok PNone, h1) /\
  step h1 (OSet inner x (PInt 5)) = (Ok PNone, h2) /\
  reify h2 outer_t (SObj (PRef outer)) <> reify h1 outer_t (SObj (PRef outer)).
Proof.
  exists objects, 4, 7, "f"%string, "x"%string, (run objects [OSet 4 "f" (PRef 7)]),
    (run objects [OSet 4 "f" (PRef 7); OSet 7 "x" (PInt 5)]).
  split; [exact objects_fine|]. split; [vm_compute; reflexivity|]. split; [vm_compute; reflexivity|].
  vm_compute. discriminate.
Qed.
Print Assumptions C56_copy_refuted.

(** Right after the assignment the field has the content of [inner]; *)
Theorem C56_same_partial : forall h a nm u fs cs act f i full' u' fs' cs' b h' s0,
  object_at h a (AComp nm u fs cs) act -> field_slot h a f = Some s0 ->
  find_field fs f = Some (i, AComp full' u' fs' cs') ->
  step h (OSet a f (PRef b)) = (Ok PNone, h') ->
  exists s, field_slot h' a f = Some s /\
    reify h' (AComp full' u' fs' cs') s = reify h' (AComp full' u' fs' cs') (SObj (PRef b)).
Proof.
  intros h a nm u fs cs act f i full' u' fs' cs' b h' s0 (d & extra & E) Hs Ef H.
  unfold field_slot in Hs. rewrite E, Ef in Hs.
  destruct (nth_error h d) as [[|slots|]|] eqn:Ed; try discriminate.
  eapply assigned_same; [exact E|exact Ed| |exact Ef|exact H]. apply nth_error_Some. congruence.
Qed.
Print Assumptions C56_same_partial.
(** and what the full statement says is true if a deep copy is assigned:
    whatever a program does that is given neither [outer] (or what belongs to
    it) nor the new objects, the content of [outer] stays. Missing: the
    assignment of [inner] itself. *)
Theorem C56_deep_copy_partial : forall h (P : addr -> Prop) outer inner c h1 f h2 ops t,
  no_dangling h -> apart h P -> (forall r, P r \/ ~ P r) -> (forall r, P r -> r < length h) -> P outer ->
  step h (ODeep inner) = (Ok (PRef c), h1) ->
  step h1 (OSet outer f (PRef c)) = (Ok PNone, h2) ->
  legal_run h2 ops -> avoids (fun r => P r \/ length h <= r < length h2) ops ->
  reify (run h2 ops) t (SObj (PRef outer)) = reify h2 t (SObj (PRef outer)).
Proof.
  intros h P outer inner c h1 f h2 ops t Hd HA Hdec HP Ho Hc Hs Hl Hav.
  exact (deep_assignment h P outer inner c h1 f PNone h2 ops t Hd HA Hdec HP Ho Hc Hs Hl Hav).
Qed.
Print Assumptions C56_deep_copy_partial.
Example C56_deep_case :
  let h1 := run objects [ODeep 7] in
  let h2 := run h1 [OSet 4 "f" (PRef 17)] in
  let ops := [OSet 7 "x" (PInt 5); OAppend 5 (PInt 6)] in
  apart objects (fun r => r < 5) /\
  step objects (ODeep 7) = (Ok (PRef 17), h1) /\ step h1 (OSet 4 "f" (PRef 17)) = (Ok PNone, h2) /\
  legal_run h2 ops /\ avoids (fun r => r < 5 \/ 10 <= r < length h2) ops /\
  reify (run h2 ops) inner_t (SObj (PRef 7)) <> reify h2 inner_t (SObj (PRef 7)).
Proof.
  cbv zeta. split.
  { intros a c H.
    do 10 (destruct a as [|a];
      [cbn in H; injection H as <-; split; intros Hp; try (exfalso; lia); cbn;
       repeat match goal with
              | |- _ /\ _ => split | |- Forall _ _ => constructor | |- True => exact I
              | |- slot_refs _ _ => cbn
              end; lia|]).
    destruct a; discriminate. }
  split; [vm_compute; reflexivity|]. split; [vm_compute; reflexivity|].
  split.
  { vm_compute. repeat split; lia. }
  split.
  { unfold avoids. repeat constructor; vm_compute; lia. }
  vm_compute. discriminate.
Qed.

(** ** C57 *)

(** The first access, reading or writing, makes the field the active one, *)
Theorem C57_access_selects : forall h a nm fs cs act f v,
  object_at h a (AComp nm true fs cs) act -> act = None \/ act = Some f ->
  In f (map fst fs) -> ~ In f (map fst cs) ->
  object_at (snd (step h (OGet a f))) a (AComp nm true fs cs) (Some f) /\
  object_at (snd (step h (OSet a f v))) a (AComp nm true fs cs) (Some f).
Proof. exact access_selects. Qed.
Print Assumptions C57_access_selects.
(** it is so for ever, whatever is done with the objects, as long as nobody
    calls [switch_union_field] for this one, *)
Theorem C57_stays_active : forall ops h a t f, no_dangling h -> legal_run h ops -> ~ switches a ops ->
  object_at h a t (Some f) -> object_at (run h ops) a t (Some f).
Proof. exact active_stays. Qed.
Print Assumptions C57_stays_active.
(** and the other fields raise. *)
Theorem C57_others_raise : forall h a nm fs cs f g v, object_at h a (AComp nm true fs cs) (Some f) ->
  In g (map fst fs) -> ~ In g (map fst cs) -> g <> f ->
  step h (OGet a g) = (Err AttributeError, h) /\ step h (OSet a g v) = (Err AttributeError, h).
Proof. exact others_blocked. Qed.
Print Assumptions C57_others_raise.
(** [switch_union_field] makes any field of a union the active one, whatever
    was active before, and changes nothing else; *)
Theorem C57_switch : forall h a nm fs cs act f,
  object_at h a (AComp nm true fs cs) act -> f <> EmptyString ->
  exists h', step h (OSwitch a (Some f)) = (Ok PNone, h') /\
    object_at h' a (AComp nm true fs cs) (Some f) /\
    (forall b, b <> a -> nth_error h' b = nth_error h b) /\
    (forall g, field_slot h' a g = field_slot h a g).
Proof. exact switch_effect. Qed.
Print Assumptions C57_switch.
(** without a name it leaves the choice to the next access; *)
Theorem C57_release : forall h a nm fs cs act, object_at h a (AComp nm true fs cs) act ->
  exists h', step h (OSwitch a None) = (Ok PNone, h') /\ object_at h' a (AComp nm true fs cs) None /\
    forall b, b <> a -> nth_error h' b = nth_error h b.
Proof. exact release_effect. Qed.
Print Assumptions C57_release.
(** it refuses what is no union. *)
Theorem C57_no_union : forall h a nm fs cs act f, object_at h a (AComp nm false fs cs) act ->
  step h (OSwitch a f) = (Err ValueError, h).
Proof. exact switch_refused. Qed.
Print Assumptions C57_no_union.
(** Names that are no field are taken, too: then every field raises, and the
    object cannot be sent. *)
Theorem C57_switched_away : forall h a nm fs cs f, object_at h a (AComp nm true fs cs) (Some f) ->
  ~ In f (map fst fs) -> ~ In f (map fst cs) ->
  reify h (AComp nm true fs cs) (SObj (PRef a)) = None /\
  forall g v, In g (map fst fs) -> ~ In g (map fst cs) ->
    step h (OGet a g) = (Err AttributeError, h) /\ step h (OSet a g v) = (Err AttributeError, h).
Proof.
  intros h a nm fs cs f Ho Hf Hc. split; [exact (switched_away h a nm fs cs f Ho Hf)|].
  intros g v Hg Hgc. apply (others_blocked h a nm fs cs f g v Ho Hg Hgc). intros ->. contradiction.
Qed.
Print Assumptions C57_switched_away.
Example C57_switch_case :
  let h := run objects [OSet 9 "q" (PInt 5); OSwitch 9 (Some "p"%string)] in
  object_at h 9 union_t (Some "p"%string) /\ fst (step h (OGet 9 "p")) = Ok (PInt 0) /\
  fst (step h (OGet 9 "q")) = Err AttributeError /\
  fst (step (run h [OSwitch 9 None]) (OGet 9 "q")) = Ok (PInt 5) /\
  fst (step h (OSwitch 4 None)) = Err ValueError /\
  fst (step (run h [OSwitch 9 (Some "z"%string)]) (OGet 9 "q")) = Err AttributeError.
Proof. cbv zeta. split; [eexists; eexists; reflexivity|]. repeat split; vm_compute; reflexivity. Qed.
(** Whoever decodes the object gets the active field with its value. *)
Theorem C57_active_field_sent : forall h a nm fs cs f i ft v tao,
  object_at h a (AComp nm true fs cs) (Some f) -> find_field fs f = Some (i, ft) ->
  reify h (AComp nm true fs cs) (SObj (PRef a)) = Some v ->
  wf_type (erase (AComp nm true fs cs)) -> valid (erase (AComp nm true fs cs)) v ->
  exists s vf bs v' rest, field_slot h a f = Some s /\ reify h ft s = Some vf /\
    pack (erase (AComp nm true fs cs)) tao v = Ok bs /\
    unpack (erase (AComp nm true fs cs)) tao (bits_from_bytes (bytes_from_bits bs)) = Ok (v', rest) /\
    content (erase (AComp nm true fs cs)) v' = DUnion i (content (erase ft) vf).
Proof. exact union_carried. Qed.
Print Assumptions C57_active_field_sent.
(** In particular, an integer that was assigned is what arrives. *)
Theorem C57_assigned_integer_sent : forall h a nm fs cs act f i k n cm z,
  object_at h a (AComp nm true fs cs) act -> act = None \/ act = Some f ->
  (exists s, field_slot h a f = Some s) ->
  find_field fs f = Some (i, APrim k n cm) -> ~ In f (map fst cs) ->
  int_type k n -> representable k n z ->
  exists h', step h (OSet a f (PInt z)) = (Ok PNone, h') /\
    forall v tao, reify h' (AComp nm true fs cs) (SObj (PRef a)) = Some v ->
    wf_type (erase (AComp nm true fs cs)) -> valid (erase (AComp nm true fs cs)) v ->
    exists bs v' rest b,
      pack (erase (AComp nm true fs cs)) tao v = Ok bs /\
      unpack (erase (AComp nm true fs cs)) tao (bits_from_bytes (bytes_from_bits bs)) = Ok (v', rest) /\
      content (erase (AComp nm true fs cs)) v' = DUnion i (DBits b) /\ get_int k n b = Some z.
Proof. exact union_sent. Qed.
Print Assumptions C57_assigned_integer_sent.
(** Constants read as their value and cannot be assigned. *)
Theorem C57_constants : forall h a nm u fs cs act c z v, object_at h a (AComp nm u fs cs) act ->
  dget String.eqb cs c = Some z ->
  step h (OSet a c v) = (Err AttributeError, h) /\ step h (OGet a c) = (Ok (PInt z), h).
Proof. exact constants_fixed. Qed.
Print Assumptions C57_constants.

Example C57_case :
  let h := snd (step objects (OSet 9 "q" (PInt (-300)))) in
  object_at h 9 union_t (Some "q"%string) /\
  step h (OGet 9 "p") = (Err AttributeError, h) /\ step h (OGet 9 "q") = (Ok (PInt (-300)), h) /\
  step h (OSet 9 "K" (PInt 1)) = (Err AttributeError, h) /\
  exists v, reify h union_t (SObj (PRef 9)) = Some v /\ wf_type (erase union_t) /\ valid (erase union_t) v.
Proof.
  cbv zeta. split; [eexists; eexists; reflexivity|].
  split; [vm_compute; reflexivity|]. split; [vm_compute; reflexivity|]. split; [vm_compute; reflexivity|].
  eexists. split; [vm_compute; reflexivity|]. split.
  - cbn. repeat constructor; cbn; lia.
  - change (erase union_t) with (TComp true [TPrim KUint 8 Saturated; TPrim KInt 16 Saturated]).
    apply valid_union; [repeat constructor|cbn; intros i H; injection H as <-; lia].
Qed.

(** ** C58

    The full statement is: text assigned to a string-like field that it fits
    into reads back. *)

(** It is false of arrays of int8, which count as string-like: bytes above
    127 are stored as 127. *)
Theorem C58_text_refuted : exists h a nm b mx s h', text_field h a nm b KInt mx /\
  Forall scalar s /\ utf8_size s <= mx /\
  step h (OSet a nm (PStr s)) = (Ok PNone, h') /\ arr_decode h' b <> Ok s.
Proof.
  exists (run [] [ONew (AComp "ns.S" false [("s", AArr true (APrim KInt 8 Saturated) 4)]%string []) []]).
  exists 2, "s"%string, 0, 4, [0xE9%N].
  exists (run [] [ONew (AComp "ns.S" false [("s", AArr true (APrim KInt 8 Saturated) 4)]%string []) [];
                  OSet 2 "s" (PStr [0xE9%N])]).
  split.
  { split; [|split].
    - do 12 eexists. split; [reflexivity|]. repeat (split; [reflexivity|]). reflexivity.
    - intros full u fs cs d act ex H Hu. injection H as <- <- <- <- <- <- <-. discriminate.
    - eexists. eexists. reflexivity. }
  split; [repeat constructor; unfold scalar; lia|]. split; [cbn; lia|].
  split; [vm_compute; reflexivity|]. vm_compute. discriminate.
Qed.
Print Assumptions C58_text_refuted.

(** It is true of all text in fields of type uint8[<=n], *)
Theorem C58_text_partial : forall s h a nm b mx, text_field h a nm b KUint mx ->
  Forall scalar s -> utf8_size s <= mx ->
  exists h', step h (OSet a nm (PStr s)) = (Ok PNone, h') /\
    field_array h' a nm b /\ step h' (ODecode b) = (Ok (PStr s), h').
Proof.
  intros s h a nm b mx Hf Hs Hl. destruct (assign_text s h a nm b mx Hf Hs Hl) as (h' & A & B & C).
  exists h'. split; [exact A|]. split; [exact B|]. cbn [step]. rewrite C. reflexivity.
Qed.
Print Assumptions C58_text_partial.
(** and of ASCII text in fields of type int8[<=n]. Missing: other text in the
    latter. *)
Theorem C58_ascii_partial : forall s h a nm b mx, text_field h a nm b KInt mx ->
  Forall (fun c => (c < 128)%N) s -> length s <= mx ->
  exists h', step h (OSet a nm (PStr s)) = (Ok PNone, h') /\
    field_array h' a nm b /\ step h' (ODecode b) = (Ok (PStr s), h').
Proof.
  intros s h a nm b mx Hf Hs Hl. destruct (assign_text_ascii s h a nm b mx Hf Hs Hl) as (h' & A & B & C).
  exists h'. split; [exact A|]. split; [exact B|]. cbn [step]. rewrite C. reflexivity.
Qed.
Print Assumptions C58_ascii_partial.
(** What is not text or does not fit is refused. *)
Theorem C58_refused : forall s h a nm b mx, text_field h a nm b KUint mx ->
  ~ Forall scalar s \/ mx < utf8_size s ->
  exists h', step h (OSet a nm (PStr s)) = (Err AttributeError, h').
Proof. exact refuse_text. Qed.
Print Assumptions C58_refused.
(** Arrays that are not dynamic arrays of eight bits are no texts. *)
Theorem C58_not_text : forall h a dyn et mx items s, nth_error h a = Some (CArr dyn et mx items) ->
  dyn = false \/ (forall k cm, et <> APrim k 8 cm) ->
  step h (ODecode a) = (Err ValueError, h) /\ step h (OEncode a s) = (Err ValueError, h).
Proof.
  intros h a dyn et mx items s E H. cbn [step]. unfold arr_decode, arr_encode. rewrite E.
  assert (string_like dyn et = false) as ->; [|split; reflexivity].
  unfold string_like. destruct H as [->|H]; [reflexivity|]. destruct dyn; [|reflexivity]. destruct et as [k n cm| | |]; try reflexivity.
  cbn. apply Nat.eqb_neq. intros ->. exact (H k cm eq_refl).
Qed.
Print Assumptions C58_not_text.
Definition numbers_only : cell := CArr true (APrim KUint 16 Saturated) 4 [].
Example C58_not_text_case : nth_error [numbers_only] 0 = Some numbers_only /\
  (forall k cm, APrim KUint 16 Saturated <> APrim k 8 cm).
Proof. split; [reflexivity|discriminate]. Qed.
(** Bytes that were stored read back. *)
Theorem C58_bytes : forall h a cm dyn mx items bs,
  nth_error h a = Some (CArr dyn (APrim KUint 8 cm) mx items) ->
  Forall (fun b => (b < 256)%N) bs -> length bs <= mx ->
  exists h', step h (OFromBytes a bs) = (Ok PNone, h') /\ arr_to_bytes h' a = Ok bs.
Proof. exact bytes_roundtrip. Qed.
Print Assumptions C58_bytes.
(** The two directions of UTF-8 are inverse to each other: in particular, no
    two texts have the same form, and no text has two. *)
Theorem C58_utf8_inverse : forall s b, utf8_encode s = Ok b <-> utf8_decode b = Ok s.
Proof. intros s b. split; [apply utf8_decode_encode|apply utf8_encode_decode]. Qed.
Print Assumptions C58_utf8_inverse.
(** Exactly the sequences of scalar values have a form, of the known size. *)
Theorem C58_utf8_scalars : forall s,
  (Forall scalar s -> exists b, utf8_encode s = Ok b /\ length b = utf8_size s) /\
  (~ Forall scalar s -> exists e, utf8_encode s = Err e).
Proof. intros s. split; [apply encode_scalars|apply encode_not_scalar]. Qed.
Print Assumptions C58_utf8_scalars.

Example C58_case : text_field filled 7 "a" 5 KUint 4 /\ utf8_size [0x20AC; 0x41]%N = 4 /\
  arr_to_bytes (snd (step filled (OSet 7 "a" (PStr [0x20AC; 0x41]%N)))) 5 = Ok [0xE2; 0x82; 0xAC; 0x41]%N.
Proof.
  split.
  { split; [|split].
    - do 12 eexists. split; [reflexivity|]. repeat (split; [reflexivity|]). reflexivity.
    - intros full u fs cs d act ex H Hu. injection H as <- <- <- <- <- <- <-. discriminate.
    - eexists. eexists. reflexivity. }
  split; vm_compute; reflexivity.
Qed.
Example C58_refused_case : 4 < utf8_size [0x1F600; 0x41]%N /\
  fst (step filled (OSet 7 "a" (PStr [0x1F600; 0x41]%N))) = Err AttributeError.
Proof. split; [cbn; lia|vm_compute; reflexivity]. Qed.

(** ** C82

    The full statement is: assigning to a name that is neither a field nor a
    constant is refused. *)

(** It is false: *)
Theorem C82_unknown_name_refuted : exists h a f v h',
  object_at h a outer_t None /\
  ~ In f (map fst [("f", inner_t); ("n", APrim KInt 16 Saturated)]%string) /\ ~ In f ["K"%string] /\
  step h (OSet a f v) = (Ok PNone, h').
Proof.
  exists objects, 4, "N"%string, (PInt 3), (snd (step objects (OSet 4 "N" (PInt 3)))).
  split; [apply objects_there|]. split; [cbn; intros [H|[H|[]]]; discriminate|].
  split; [cbn; intros [H|[]]; discriminate|]. vm_compute. reflexivity.
Qed.
Print Assumptions C82_unknown_name_refuted.
(** of every message and every such name, the value is kept as an attribute
    that reads back, and the content of all messages is what it was. Names
    that every Python object has are not considered. *)
Theorem C82_unknown_name_kept : forall h a u fs cs nm f act v,
  object_at h a (AComp nm u fs cs) act -> ~ In f (map fst fs) -> ~ In f (map fst cs) ->
  exists h', step h (OSet a f v) = (Ok PNone, h') /\ step h' (OGet a f) = (Ok v, h') /\
    forall t' s, reify h' t' s = reify h t' s.
Proof. intros. eapply unknown_set; eauto. Qed.
Print Assumptions C82_unknown_name_kept.
(** Reading a name that was never assigned is refused. *)
Theorem C82_unknown_name_partial : forall h a u fs cs nm f act d extra,
  nth_error h a = Some (CComp nm u fs cs d act extra) ->
  ~ In f (map fst fs) -> ~ In f (map fst cs) -> ~ In f (map fst extra) ->
  step h (OGet a f) = (Err AttributeError, h).
Proof.
  intros h a u fs cs nm f act d extra E Hf Hc He. cbn [step]. unfold getattr.
  rewrite E, (dget_none _ _ Hc), (find_field_none _ _ Hf).
  assert (dget String.eqb extra f = None) as ->; [|reflexivity].
  clear -He. induction extra as [|[n v] extra IH]; [reflexivity|]. cbn.
  destruct (String.eqb f n) eqn:E.
  - apply String.eqb_eq in E. subst. exfalso. apply He. left. reflexivity.
  - apply IH. intros Hi. apply He. right. exact Hi.
Qed.
Print Assumptions C82_unknown_name_partial.
Example C82_case : ~ In "xx"%string (map fst [("f", inner_t); ("n", APrim KInt 16 Saturated)]%string) /\
  fst (step objects (OSet 4 "xx" (PInt 1))) = Ok PNone /\ step objects (OGet 4 "xx") = (Err AttributeError, objects).
Proof.
  split; [cbn; intros [H|[H|[]]]; discriminate|]. split; vm_compute; reflexivity.
Qed.

(** ** C83 *)

(** A deep copy has the content of the original, *)
Theorem C83_copy_equal : forall h a t, a < length h ->
  exists b h', step h (ODeep a) = (Ok (PRef b), h') /\
    reify h' t (SObj (PRef b)) = reify h t (SObj (PRef a)).
Proof. exact deepcopy_equal. Qed.
Print Assumptions C83_copy_equal.
(** and keeps it whatever is done with the objects that were there before;
    the original keeps its content whatever is done with the new objects. *)
Theorem C83_copy_independent : forall h a b h' ops t, no_dangling h ->
  step h (ODeep a) = (Ok (PRef b), h') -> legal_run h' ops ->
  (avoids (fun r => length h <= r < length h') ops ->
   reify (run h' ops) t (SObj (PRef b)) = reify h t (SObj (PRef a))) /\
  (avoids (fun r => r < length h) ops ->
   reify (run h' ops) t (SObj (PRef a)) = reify h t (SObj (PRef a))).
Proof. exact deepcopy_independent. Qed.
Print Assumptions C83_copy_independent.
Example C83_case :
  let h' := run filled [ODeep 7] in
  let ops := [OSet 7 "x" (PInt 9); OClear 5] in
  step filled (ODeep 7) = (Ok (PRef 17), h') /\ legal_run h' ops /\ avoids (fun r => 10 <= r < 20) ops /\
  reify (run h' ops) inner_t (SObj (PRef 17)) = reify filled inner_t (SObj (PRef 7)) /\
  reify (run h' ops) inner_t (SObj (PRef 7)) <> reify filled inner_t (SObj (PRef 7)).
Proof.
  cbv zeta. split; [vm_compute; reflexivity|]. split.
  { vm_compute. repeat split; lia. }
  split; [unfold avoids; repeat constructor; cbn; lia|].
  split; [vm_compute; reflexivity|vm_compute; discriminate].
Qed.

(** ** C84 *)

(** A new message has blank content, leaves the other objects alone and
    shares nothing with them. *)
Theorem C84_new_message : forall h t, (exists nm u fs cs, t = AComp nm u fs cs) ->
  exists a h', step h (ONew t []) = (Ok (PRef a), h') /\
    (exists v, reify h' t (SObj (PRef a)) = Some v /\ content (erase t) v = blank t) /\
    (forall b, b < length h -> nth_error h' b = nth_error h b) /\
    length h <= a /\
    (forall b c, length h <= b -> nth_error h' b = Some c -> cell_refs (fun r => length h <= r < length h') c).
Proof. exact new_default. Qed.
Print Assumptions C84_new_message.
(** An integer given for a field reads back. *)
Theorem C84_integer_field : forall h a nm u fs cs act f i k n cm z,
  object_at h a (AComp nm u fs cs) act -> open_field h a f -> (exists s, field_slot h a f = Some s) ->
  find_field fs f = Some (i, APrim k n cm) -> ~ In f (map fst cs) ->
  int_type k n -> representable k n z ->
  exists h' b, step h (OSet a f (PInt z)) = (Ok PNone, h') /\
    field_slot h' a f = Some (SPrim b) /\ get_int k n b = Some z /\
    step h' (OGet a f) = (Ok (PInt z), h').
Proof.
  intros h a nm u fs cs act f i k n cm z (d & extra & E) Ho (s & Hs) Ef Hc Ht Hr.
  unfold field_slot in Hs. rewrite E, Ef in Hs.
  destruct (nth_error h d) as [[|slots|]|] eqn:Ed; try discriminate.
  eapply set_int_field; try eassumption; [apply nth_error_Some; congruence|].
  intros Hu. exact (Ho _ _ _ _ _ _ _ E Hu).
Qed.
Print Assumptions C84_integer_field.
Example C84_case : blank outer_t = DList [DList [DBits (repeat false 8); DList []]; DBits (repeat false 16)] /\
  fst (step objects (ONew outer_t [])) = Ok (PRef 14) /\
  step (snd (step objects (OSet 4 "n" (PInt (-5))))) (OGet 4 "n") =
    (Ok (PInt (-5)), snd (step objects (OSet 4 "n" (PInt (-5))))).
Proof. split; [reflexivity|split; vm_compute; reflexivity]. Qed.
