(** Splice schedule and event message layout, from doc/dashlivesim.mdown 145-151,
    the docstring in mediasegmentfilter.py and ISO/IEC 23009-1 5.10.3.3. *)
From Verif Require Import Base BytesModel BoxSpec.
Open Scope Z_scope.

(** Seconds after the full minute at which ads start.  (The documentation says
    10, 30, 50 for three ads, the code has 10, 36, 46: see
    C34_documented_three_refuted.) *)
Definition splice_second (n o : Z) : Prop :=
  o = 10 \/ (n = 2 /\ o = 40) \/ (n = 3 /\ (o = 36 \/ o = 46)) \/ (n = 8 /\ o = 30).
Definition splice (n t : Z) : Prop := splice_second n (t mod 60).
Definition documented_splice (n t : Z) : Prop :=
  t mod 60 = 10 \/ (n = 2 /\ t mod 60 = 40) \/ (n = 3 /\ (t mod 60 = 30 \/ t mod 60 = 50)).
(** Length of an ad. *)
Definition ad_seconds (n : Z) : Z := if n =? 8 then 20 else 10.
(** Segment [k] of duration [d] touches instant [w]. *)
Definition touches (d k w : Z) : Prop := k * d <= w <= (k + 1) * d.

Definition dq : string := String (ascii_of_nat 34) EmptyString.
Definition nl : string := String (ascii_of_nat 10) EmptyString.
(** The message text of a splice insert. *)
Definition splice_xml (id pts dur : Z) : string :=
  ("<SpliceInfoSection ptsAdjustment=" ++ dq ++ "0" ++ dq ++ " scte35:tier=" ++ dq ++ "4095" ++ dq ++ ">" ++ nl ++
   "<SpliceInsert spliceEventId=" ++ dq ++ print_Z id ++ dq ++
   " spliceEventCancelIndicator=" ++ dq ++ "false" ++ dq ++ " outOfNetworkIndicator=" ++ dq ++ "false" ++ dq ++
   " uniqueProgramId=" ++ dq ++ "0" ++ dq ++ " availNum=" ++ dq ++ "0" ++ dq ++ " availsExpected=" ++ dq ++ "0" ++ dq ++
   " spliceImmediateFlag=" ++ dq ++ "false" ++ dq ++ " >" ++ nl ++
   "<Program><SpliceTime ptsTime=" ++ dq ++ print_Z pts ++ dq ++ "/></Program>" ++ nl ++
   "<BreakDuration autoReturn=" ++ dq ++ "true" ++ dq ++ " duration=" ++ dq ++ print_Z dur ++ dq ++ "/>" ++ nl ++
   "</SpliceInsert>" ++ nl ++ "</SpliceInfoSection>")%string.

(** Payload of a version 0 emsg box. *)
Definition event_payload (scheme value : bytes) (timescale delta duration id : Z) (data : bytes) : bytes :=
  [0; 0; 0; 0] ++ scheme ++ 0 :: value ++ 0 :: be32 timescale ++ be32 delta ++ be32 duration ++ be32 id ++ data.

(** The event box with which a segment starting at [s] announces the splice at
    [t]: times in 90000ths of a second, PTS modulo 2^33, id from the splice time. *)
Definition splice_box (n s t : Z) : box :=
  Leaf (bstr "emsg")
    (event_payload (bstr "urn:scte:scte35:2013:xml") (bstr "999") 90000 ((t - s) * 90000) (ad_seconds n * 90000) (t / 10)
       (bstr (splice_xml (t / 10) (t * 90000 mod 8589934592) (ad_seconds n * 90000)))).

(** Text without special characters: code points below 128, and not NUL. *)
Definition plain_text (s : string) : Prop := Forall (fun c => 0 <= c < 128) (bstr s).
Definition no_nul (s : string) : Prop := ~ In 0 (bstr s).
