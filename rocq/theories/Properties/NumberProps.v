(** Properties of numbers written to message objects: C155. *)
From Coq Require Import String.
From Verif.Base Require Import Prelude Bits.
From Verif.Model Require Import BitCodec Types Codec Prim Float Utf8 ObjectApi ObjectUnpack.
From Verif.Spec Require Import PrimSpec CodecSpec FloatSpec SendableSpec ReceiveSpec ObjectSpec NumberSpec.
From Verif.Proofs Require Import ObjectArrays ObjectSend NumberFacts NumberArrive.
Open Scope list_scope.
Local Open Scope nat_scope.

(** ** C155 *)

(** A number written to a field reads as what the type can hold of it: the
    nearest number of a saturated type, the number modulo the width of a
    truncated integer type, the rounded number of a float type, whether it is
    zero for booleans. Other fields and other objects are as they were. *)
Theorem C155_field : forall h a nm u fs cs act f i k n cm v,
  object_at h a (AComp nm u fs cs) act -> open_field h a f -> (exists s, field_slot h a f = Some s) ->
  find_field fs f = Some (i, APrim k n cm) -> ~ In f (map fst cs) -> number_for k n v ->
  exists h' w, step h (OSet a f v) = (Ok PNone, h') /\ step h' (OGet a f) = (Ok w, h') /\ number_stored k n cm v w /\
    (u = false -> forall g, g <> f -> fst (step h' (OGet a g)) = fst (step h (OGet a g))) /\
    (forall b nm' u' fs' cs' d' act' extra', b <> a ->
       nth_error h b = Some (CComp nm' u' fs' cs' d' act' extra') -> nth_error h' b = nth_error h b) /\
    (forall b et mx, array_at h b et mx -> nth_error h' b = nth_error h b).
Proof.
  intros h a nm u fs cs act f i k n cm v (d & extra & E) Ho (s & Hs) Ef Hc Hv.
  unfold field_slot in Hs. rewrite E, Ef in Hs. destruct (nth_error h d) as [[|slots|]|] eqn:Ed; try discriminate.
  destruct (set_number_field h a nm u fs cs act f i k n cm v slots d extra) as (h' & w & A & B & C & D & F); try assumption.
  { apply nth_error_Some. congruence. }
  { intros Hu. exact (Ho _ _ _ _ _ _ _ E Hu). }
  exists h', w. split; [exact A|]. split; [exact B|]. split; [exact C|]. split; [exact D|]. split.
  - intros b nm' u' fs' cs' d' act' extra' Hb Eb. apply F; [exact Hb|]. intros ->. congruence.
  - intros b et mx (dyn & items & Eb). apply F; intros ->; congruence.
Qed.
Print Assumptions C155_field.

(** A battery: voltage 0.1 and a temperature beyond the largest number, a
    charge of 200 in seven bits, a flag. The largest number of 16 bits is
    [65504 = 16769024 / 2^8]. The number 0.1 is the double
    [0x1.999999999999ap-4]; 32 bits keep [0x1.99999ap-4] of it. *)
Definition bat_fields := [("volt", APrim KFloat 32 Saturated); ("temp", APrim KFloat 16 Saturated);
  ("pct", APrim KUint 7 Saturated); ("low", APrim KUint 4 Truncated); ("on", APrim KBool 1 Saturated);
  ("cells", AArr true (APrim KFloat 16 Truncated) 3)]%string.
Definition bat := AComp "ns.Bat" false bat_fields [].
Definition bats : catalogue := fun nm => if String.eqb nm "ns.Bat" then Some (false, bat_fields, []) else None.
Definition tenth : pyfloat := FFin false 7205759403792794 (-56).
(** The object is number 2, its array 0. *)
Definition bat_new : list op := [ONew bat []].
Definition bat_heap : heap := Eval vm_compute in run [] bat_new.
Lemma bat_run : run [] bat_new = bat_heap.
Proof. vm_compute. reflexivity. Qed.
Example C155_field_case : exists ar ob, nth_error bat_heap ar = Some (CArr true (APrim KFloat 16 Truncated) 3 []) /\
  object_at bat_heap ob bat None /\ open_field bat_heap ob "volt" /\
  number_for KFloat 32 (PFloat tenth) /\ number_for KFloat 16 (PInt 100000) /\ number_for KUint 7 (PInt 200) /\
  number_for KBool 1 (PFloat tenth) /\
  let wrote f v := fst (step (snd (step bat_heap (OSet ob f v))) (OGet ob f)) in
  wrote "volt"%string (PFloat tenth) = Ok (PFloat (FFin false 13421773 (-27))) /\
  wrote "temp"%string (PInt 100000) = Ok (PFloat (FFin false 16769024 (-8))) /\
  wrote "pct"%string (PInt 200) = Ok (PInt 127) /\
  wrote "low"%string (PInt 0x35) = Ok (PInt 5) /\
  wrote "on"%string (PFloat tenth) = Ok (PInt 1).
Proof.
  exists 0, 2. split; [reflexivity|]. split; [do 2 eexists; reflexivity|].
  split; [intros full u fs cs d active extra E Hu; vm_compute in E; congruence|].
  split. { split; [auto|]. right. eexists. split; [reflexivity|]. cbn. lia. }
  split. { split; [auto|]. left. eexists. split; [reflexivity|]. lia. }
  split. { split; [cbn; lia|]. eexists. split; [reflexivity|]. discriminate. }
  split. { split; [reflexivity|]. right. eexists. reflexivity. }
  vm_compute. repeat split.
Qed.

(** Floats given to integer fields: one beyond the range of a saturated type
    becomes the nearest end of the range, *)
Theorem C155_float_beyond : forall h a nm u fs cs act f i k n x, object_at h a (AComp nm u fs cs) act -> open_field h a f ->
  (exists s, field_slot h a f = Some s) -> find_field fs f = Some (i, APrim k n Saturated) -> ~ In f (map fst cs) ->
  (k = KUint \/ k = KInt) -> int_type k n -> (k = KInt -> n <= 53) -> is_double x ->
  (greater x (range_high k n) -> exists h', step h (OSet a f (PFloat x)) = (Ok PNone, h') /\ step h' (OGet a f) = (Ok (PInt (range_high k n)), h')) /\
  (less x (range_low k n) -> exists h', step h (OSet a f (PFloat x)) = (Ok PNone, h') /\ step h' (OGet a f) = (Ok (PInt (range_low k n)), h')).
Proof. exact float_beyond. Qed.
Print Assumptions C155_float_beyond.
(** any other is refused, even one that is an integer, and nothing changes. *)
Theorem C155_float_refused : forall h a nm fs cs act f i k n cm x, object_at h a (AComp nm false fs cs) act ->
  (exists s, field_slot h a f = Some s) -> find_field fs f = Some (i, APrim k n cm) -> ~ In f (map fst cs) ->
  (k = KUint \/ k = KInt) -> int_type k n -> (k = KInt -> n <= 53) -> is_double x ->
  ~ greater x (range_high k n) -> ~ less x (range_low k n) ->
  step h (OSet a f (PFloat x)) = (Err (match cm with Saturated => ValueError | Truncated => TypeError end), h).
Proof. exact float_refused. Qed.
Print Assumptions C155_float_refused.
(** 200.0 and minus infinity are beyond seven bits, 100.0 is not; truncated
    types take no float at all. *)
Definition hundred : pyfloat := FFin false 100 0.
Definition two_hundred : pyfloat := FFin false 100 1.
Example C155_float_case : greater two_hundred (range_high KUint 7) /\ less (FInf true) (range_low KUint 7) /\
  ~ greater hundred (range_high KUint 7) /\ ~ less hundred (range_low KUint 7) /\
  (let wrote f v := fst (step (snd (step bat_heap (OSet 2 f v))) (OGet 2 f)) in
   wrote "pct"%string (PFloat two_hundred) = Ok (PInt 127) /\ wrote "pct"%string (PFloat (FInf true)) = Ok (PInt 0)) /\
  step bat_heap (OSet 2 "pct" (PFloat hundred)) = (Err ValueError, bat_heap) /\
  step bat_heap (OSet 2 "low" (PFloat hundred)) = (Err TypeError, bat_heap).
Proof.
  unfold greater, less. cbn [units two_hundred hundred range_high range_low].
  split; [vm_compute; reflexivity|]. split; [reflexivity|]. split; [vm_compute; discriminate|]. split; [vm_compute; discriminate|].
  vm_compute. repeat split.
Qed.

(** Arrays: numbers inserted, appended and assigned to an index are in the
    array as the element type can hold them, the other items as they were. *)
Theorem C155_insert : forall h a k n cm mx vs i v,
  array_at h a (APrim k n cm) mx -> reads_as h a vs -> length vs < mx -> (i < Z.of_nat mx)%Z -> number_for k n v ->
  exists h' w, step h (OInsert a i v) = (Ok PNone, h') /\ array_at h' a (APrim k n cm) mx /\ number_stored k n cm v w /\
    reads_as h' a (py_insert i w vs) /\ forall b, b <> a -> nth_error h' b = nth_error h b.
Proof. exact insert_number. Qed.
Print Assumptions C155_insert.
Theorem C155_append : forall h a k n cm mx vs v,
  array_at h a (APrim k n cm) mx -> reads_as h a vs -> length vs < mx -> number_for k n v ->
  exists h' w, step h (OAppend a v) = (Ok PNone, h') /\ array_at h' a (APrim k n cm) mx /\ number_stored k n cm v w /\
    reads_as h' a (vs ++ [w]) /\ forall b, b <> a -> nth_error h' b = nth_error h b.
Proof. exact append_number. Qed.
Print Assumptions C155_append.
Theorem C155_replace : forall h a k n cm mx vs i v,
  array_at h a (APrim k n cm) mx -> reads_as h a vs -> length vs <= mx -> in_bounds i vs -> number_for k n v ->
  exists h' w, step h (OSetItem a i v) = (Ok PNone, h') /\ array_at h' a (APrim k n cm) mx /\ number_stored k n cm v w /\
    reads_as h' a (py_replace i w vs) /\ forall b, b <> a -> nth_error h' b = nth_error h b.
Proof. exact replace_number. Qed.
Print Assumptions C155_replace.
(** The array of the battery: one, then a number beyond 16 bits before it,
    then zero in its place. *)
Definition one16 : pyval := PFloat (FFin false 8388608 (-23)).
Definition zero16 : pyval := PFloat (FFin false 0 (-149)).
Definition cells_1 : heap := Eval vm_compute in snd (step bat_heap (OAppend 0 (PInt 1))).
Definition cells_2 : heap := Eval vm_compute in snd (step cells_1 (OInsert 0 (-1) (PInt 70000))).
Definition cells_3 : heap := Eval vm_compute in snd (step cells_2 (OSetItem 0 (-2) (PFloat (FFin false 0 0)))).
Definition all_items (h : heap) (a : addr) : list (res pyval) :=
  match arr_len h a with Ok n => map (fun i => arr_getitem h a (Z.of_nat i)) (seq 0 n) | Err _ => [] end.
Example C155_array_case : array_at bat_heap 0 (APrim KFloat 16 Truncated) 3 /\ reads_as bat_heap 0 [] /\
  number_for KFloat 16 (PInt 70000) /\ in_bounds (-2) [PFloat (FInf false); one16] /\
  all_items cells_1 0 = [Ok one16] /\ all_items cells_2 0 = [Ok (PFloat (FInf false)); Ok one16] /\
  all_items cells_3 0 = [Ok zero16; Ok one16].
Proof.
  split; [do 2 eexists; reflexivity|]. split. { apply (proj2 (reads_items bat_heap 0 true (APrim KFloat 16 Truncated) 3 [] [] eq_refl)). constructor. }
  split. { split; [auto|]. left. eexists. split; [reflexivity|]. lia. }
  split; [unfold in_bounds; cbn; lia|]. vm_compute. repeat split.
Qed.

(** A list of numbers, or another array of numbers, assigned to an array
    field: the array is replaced by what the element type can hold of them, or
    by as many as fit and an exception. *)
Theorem C155_assign : forall h a nm b k n cm mx v vs, field_array h a nm b -> open_field h a nm ->
  array_at h b (APrim k n cm) mx -> yields h v vs -> v <> PRef b -> Forall (number_for k n) vs ->
  exists h' ws, step h (OSet a nm v) = ((if length vs <=? mx then Ok PNone else Err AttributeError), h') /\
    Forall2 (number_stored k n cm) vs ws /\
    field_array h' a nm b /\ array_at h' b (APrim k n cm) mx /\ reads_as h' b (firstn mx ws).
Proof. exact assign_numbers. Qed.
Print Assumptions C155_assign.
Example C155_assign_case :
  let four := [PInt 1; PInt 70000; PFloat (FFin false 0 0); PInt 1] in
  field_array cells_2 2 "cells" 0 /\ open_field cells_2 2 "cells" /\ Forall (number_for KFloat 16) four /\
  (let r := step cells_2 (OSet 2 "cells" (PList (firstn 2 four))) in
   fst r = Ok PNone /\ all_items (snd r) 0 = [Ok one16; Ok (PFloat (FInf false))]) /\
  (let r := step cells_2 (OSet 2 "cells" (PList four)) in
   fst r = Err AttributeError /\ all_items (snd r) 0 = [Ok one16; Ok (PFloat (FInf false)); Ok zero16]).
Proof.
  cbv zeta. split. { do 12 eexists. repeat (split; [reflexivity|]). reflexivity. }
  split; [intros full u fs cs d active extra E Hu; vm_compute in E; congruence|].
  split. { repeat (constructor; [split; [auto|first [left; eexists; split; [reflexivity|lia] | right; eexists; split; [reflexivity|cbn; lia]]]|]). constructor. }
  vm_compute. repeat split.
Qed.

(** What is read after writing is also what the receiver of the message
    reads. *)
Theorem C155_arrives : forall env es a nm u fs cs act f i k n cm x v tao bs es' pad,
  let h := history es in let t := AComp nm u fs cs in
  object_at h a t act -> open_field h a f -> (exists s, field_slot h a f = Some s) ->
  find_field fs f = Some (i, APrim k n cm) -> ~ In f (map fst cs) -> number_for k n x -> doubles x ->
  let es1 := es ++ [Did (OSet a f x)] in
  Forall (typed_happening env) es -> Forall (typed_happening env) es' -> distinct_names t ->
  reify (history es1) t (SObj (PRef a)) = Some v -> valid (erase t) v -> selected (erase t) v ->
  pack (erase t) tao v = Ok bs -> (tao = true -> List.length pad < 8) ->
  exists b h' w, receive (history es') t tao (bs ++ pad) = (Ok b, h') /\ fst (step h' (OGet b f)) = Ok w /\ number_stored k n cm x w.
Proof. exact any_number_arrives. Qed.
Print Assumptions C155_arrives.
Definition bat_sent : list happening := map Did bat_new ++ [Did (OSet 2 "volt" (PFloat tenth))].
Definition bat_value : value :=
  Eval vm_compute in match reify (history bat_sent) bat (SObj (PRef 2)) with Some v => v | None => VVoid end.
Definition bat_bits : bits := Eval vm_compute in match pack (erase bat) true bat_value with Ok b => b | Err _ => [] end.
Example C155_arrives_case : object_at (history (map Did bat_new)) 2 bat None /\
  Forall (typed_happening bats) (map Did bat_new) /\ number_for KFloat 32 (PFloat tenth) /\ doubles (PFloat tenth) /\
  distinct_names bat /\ reify (history bat_sent) bat (SObj (PRef 2)) = Some bat_value /\ valid (erase bat) bat_value /\ selected (erase bat) bat_value /\
  pack (erase bat) true bat_value = Ok bat_bits /\
  fst (step (snd (receive [] bat true bat_bits)) (OGet 2 "volt")) = Ok (PFloat (FFin false 13421773 (-27))).
Proof.
  split; [do 2 eexists; vm_compute; reflexivity|].
  split. { constructor; [|constructor]. cbn. repeat match goal with |- _ /\ _ => split | |- _ = _ => reflexivity | |- True => exact Logic.I end; auto; try lia; try discriminate. }
  split. { split; [auto|]. right. eexists. split; [reflexivity|]. cbn. lia. }
  split; [cbn; lia|].
  split. { cbn. repeat split; repeat constructor; cbn; intuition discriminate. }
  split; [vm_compute; reflexivity|]. split; [cbn; repeat split; repeat constructor; lia|].
  split; [cbn; repeat split; repeat constructor|]. split; vm_compute; reflexivity.
Qed.
