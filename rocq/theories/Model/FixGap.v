(** examples/fix2_gap.py: gaps between the fixes of each GPS are printed.
    Simplifications: the arithmetic on the average is a parameter; a line
    printed is one item of [g_out], with the average interval the rate is
    computed from. *)
From Verif.Base Require Import Prelude.
Local Open Scope Z_scope.

(** [source_node_id] and [ts_real] of a transfer. *)
Record fix2 := Fix { f_node : N; f_ts : Z }.
(** 22-23, and the lines of 38: node, gap and average interval. *)
Record gaps (F : Type) : Type := Gaps { g_last : list (N * Z); g_low : list (N * F); g_out : list (N * Z * F) }.
Arguments Gaps {F}. Arguments g_last {F}. Arguments g_low {F}. Arguments g_out {F}.

Section FixGap.
  Variable F : Type.
  (** 31: 0.2; 34: [0.9 * x + 0.1 * dt]; whether [1.0/x] raises. *)
  Variable fifth : F.
  Variable smooth : F -> Z -> F.
  Variable is_zero : F -> bool.
  (** --source-node-id and --threshold *)
  Variable only : option N.
  Variable threshold : Z.

  (** 25-38. [lowpass[nodeid]] is there whenever [last_fix2[nodeid]] is. What
      is raised is logged by the node (node.py 196-202). *)
  Definition handle_fix2 (s : gaps F) (m : fix2) : gaps F :=
    if match only with Some n => negb (N.eqb (f_node m) n) | None => false end then s
    else
      match dget N.eqb (g_last s) (f_node m) with
      | None => Gaps (dset N.eqb (g_last s) (f_node m) (f_ts m)) (dset N.eqb (g_low s) (f_node m) fifth) (g_out s)
      | Some l =>
          let dt := f_ts m - l in
          match dget N.eqb (g_low s) (f_node m) with
          | None => s
          | Some f =>
              let f := smooth f dt in
              Gaps (dset N.eqb (g_last s) (f_node m) (f_ts m)) (dset N.eqb (g_low s) (f_node m) f)
                   (if threshold <? dt then if is_zero f then g_out s else g_out s ++ [(f_node m, dt, f)] else g_out s)
          end
      end.
  Definition watch (ms : list fix2) : gaps F := fold_left handle_fix2 ms (Gaps [] [] []).
End FixGap.
