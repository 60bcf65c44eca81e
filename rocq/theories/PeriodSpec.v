(** What multi-period manifests promise, written from doc/dashlivesim.mdown
    (periods_n: n periods per hour, at most 60) without the model's functions. *)
From Verif Require Import Base ConfigModel PeriodModel.
Open Scope Z_scope.

(** The session has [n] periods per hour, each [pd] seconds long. *)
Definition multi (c : config) (n pd : Z) : Prop :=
  0 < n <= 60 /\ n * pd = 3600 /\ (c_pph c = n \/ (60 < c_pph c /\ n = 60)).

(** Period number [nr] is one of the selected ones when [m] periods per hour
    are to be selected (more than 60 counts as 60) out of [n]. *)
Definition selected (n m nr : Z) : Prop := 0 < m /\ exists k, n = k * Z.min m 60 /\ (k | nr).

(** The period counts of the documentation: a divisor of 60, or 0, or none. *)
Definition supported (pph : Z) : Prop := pph = -1 \/ pph = 0 \/ 60 <= pph \/ (0 < pph < 60 /\ (pph | 60)).

(** Length of an early terminated period (half a period by default). *)
Definition early_length (c : config) (pd : Z) : Z := if c_etpdur c =? -1 then pd / 2 else c_etpdur c.

(** The segment number in the manifest that stands for "attribute absent,
    default 1". *)
Definition effective_number (k : Z) : Z := if k =? -1 then 1 else k.

(** The time offset of the session in seconds (option timeoffset_T), and that it
    is a whole number of segments. *)
Definition offset_s (c : config) : Z := match c_timeoffset c with Some T => T | None => 0 end.
Definition whole_offset (c : config) : Prop := forall T, c_timeoffset c = Some T -> (c_seg_dur c | T).
