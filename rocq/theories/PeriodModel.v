(** Model of the period part of dashlivesim/dashlib/mpd_proxy.py: the option
    checks of get_mpd (lines 20-32) and generate_period_data (lines 199-291). *)
From Verif Require Import Base ConfigModel.
Local Open Scope string_scope.
Open Scope Z_scope.

(** The value stored under 'presentationTimeOffset': a string (lines 219 and
    225) or an integer (line 244).  The distinction matters in
    mpdprocessor.py 329 and 388. *)
Inductive ptov := PStr (s : string) | PInt (z : Z).
(** [str(pto)] *)
Definition pto_str (p : ptov) : string := match p with PStr s => s | PInt z => print_Z z end.

(** One dictionary of the list period_data; optional keys are options
    ('etpDuration', 'mpdCallback', 'periodDuration', 'period_duration_s'). *)
Record pdata := mk_pdata {
  pd_id : string;
  pd_start : string;
  pd_start_number : string;
  pd_duration : Z;
  pd_pto : ptov;
  pd_start_s : Z;
  pd_etp : option Z;
  pd_callback : bool;
  pd_period_duration : option string;
  pd_period_duration_s : option Z
}.
(** [data['period_duration_s'] = d] *)
Definition set_duration_s (d : Z) (p : pdata) : pdata :=
  mk_pdata (pd_id p) (pd_start p) (pd_start_number p) (pd_duration p) (pd_pto p) (pd_start_s p)
           (pd_etp p) (pd_callback p) (pd_period_duration p) (Some d).
(** mpd_proxy.py 283-284: 'periodDuration' and 'period_duration_s' are set. *)
Definition set_ad_duration (d : Z) (p : pdata) : pdata :=
  mk_pdata (pd_id p) (pd_start p) (pd_start_number p) (pd_duration p) (pd_pto p) (pd_start_s p)
           (pd_etp p) (pd_callback p) (Some ("PT" ++ print_Z d ++ "S")) (Some d).

(** mpd_proxy.py 206 *)
Definition allowed_counts : list Z := [-1; 0; 1; 2; 3; 4; 5; 6; 10; 12; 15; 20; 30; 60].
(** mpd_proxy.py 206: the test with [not in] *)
Definition count_allowed (n : Z) : bool := existsb (Z.eqb n) allowed_counts.

(** mpd_proxy.py 249-254 and 270-275: [float(n)/m] for 0 < m <= 60, 0 < n <= 60; the
    test [x != int(x)] on the correctly rounded quotient of two such integers
    is divisibility, and the quotient is then exact. *)
Definition quotient_or_raise (n m : Z) : result Z :=
  if n mod m =? 0 then Ok (n / m) else Err "Exception".

(** mpd_proxy.py 246-265: the 'etpDuration' of period [nr], when there is one. *)
Definition etp_of (c : config) (n pd nr : Z) : result (option Z) :=
  if 0 <? c_etp c then
    let* k := quotient_or_raise n (Z.min (c_etp c) 60) in
    let e := if c_etpdur c =? -1 then pd / 2 else c_etpdur c in
    if pd <? e then Err "Exception"
    else Ok (if nr mod k =? 0 then Some e else None)
  else Ok None.
(** mpd_proxy.py 267-279 *)
Definition callback_of (c : config) (n nr : Z) : result bool :=
  if 0 <? c_callback c then
    let* k := quotient_or_raise n (Z.min (c_callback c) 60) in Ok (nr mod k =? 0)
  else Ok false.

(** mpd_proxy.py 241-279: the dictionary of one period.  [start_time//seg_dur] raises
    when the segment duration is zero. *)
Definition one_period (c : config) (n pd nr : Z) : result pdata :=
  let start_time := nr * pd in
  let* sn := py_div start_time (c_seg_dur c) in
  let* etp := etp_of c n pd nr in
  let* cb := callback_of c n nr in
  Ok (mk_pdata ("p" ++ print_Z nr) ("PT" ++ print_Z start_time ++ "S") (print_Z sn) (c_seg_dur c)
        (PInt start_time) start_time etp cb None etp).

(** mpd_proxy.py 239-285; [acc] is period_data in reverse order. *)
Fixpoint period_loop (c : config) (n pd ad_frequency : Z) (nrs : list Z) (acc : list pdata) : result (list pdata) :=
  match nrs with
  | [] => Ok acc
  | nr :: rest =>
      let* data := one_period c n pd nr in
      let prev :=
        match acc with
        | p :: acc' =>
            if (0 <? ad_frequency) && (nr mod ad_frequency =? 0) then set_ad_duration pd p :: acc' else acc
        | [] => []
        end in
      period_loop c n pd ad_frequency rest (data :: prev)
  end.
(** mpd_proxy.py 287-290, on the list in its final order. *)
Fixpoint fill_durations (pd : Z) (l : list pdata) : list pdata :=
  match l with
  | [] => []
  | [p] => [p]
  | p :: r =>
      (match pd_period_duration_s p with None => set_duration_s pd p | Some _ => p end) :: fill_durations pd r
  end.

(** [range(a, b+1)] *)
Definition zrange (a b : Z) : list Z := map (fun i => a + Z.of_nat i) (seq 0 (Z.to_nat (b - a + 1))).

(** generate_period_data, lines 199-291.  Result: the new value of
    mpd_data['minimumUpdatePeriod'], if it is changed, and period_data.
    [start_number] and [pto] are mpd_data['startNumber'] and
    mpd_data['presentationTimeOffset'] (lines 74 and 81). *)
Definition generate_period_data (c : config) (start_number pto now : Z) : result (option string * list pdata) :=
  let n := Z.min (c_pph c) 60 in
  if negb (count_allowed n) then Err "Exception"
  else
    let* ad_frequency := if 0 <? c_insert_ad c then py_div n (c_xlink c) else Ok (-1) in
    let d := c_seg_dur c in
    if n =? -1 then
      let* q := py_div 0 d in
      Ok (None, [mk_pdata "p0" "PT0S" (print_Z (start_number + q)) d (PStr (print_Z pto)) 0 None false None None])
    else if n =? 0 then
      let* q := py_div 3600000 d in
      Ok (None, [mk_pdata "p0" "PT3600000S" (print_Z q) d (PStr "3600000") 3600000 None false None None])
    else
      let pd := 3600 / n in
      let half := pd / 2 in
      let mup := if c_segtl c || c_segtlnr c then d else half - 5 in
      match c_tsbd c with
      | None => Err "TypeError"
      | Some tsbd =>
          let last := (now + half) / pd in
          let first := (now - tsbd - d) / pd in
          let* rev_data := period_loop c n pd ad_frequency (zrange first last) [] in
          Ok (Some ("PT" ++ print_Z mup ++ "S"), fill_durations pd (List.rev rev_data))
      end.

(** get_mpd, lines 21-32: the checks made before the manifest is generated.
    Line 27 divides by a positive number of at most 60; for a zero or negative
    period count of at least -2^53 the test is divisibility as well. *)
Definition mpd_option_checks (c : config) : result unit :=
  let m := Z.min (c_xlink c) 60 in
  let n := Z.min (c_pph c) 60 in
  if (0 <? m) && (n =? -1) then Err "Exception"
  else if (0 <? m) && negb (n mod m =? 0) then Err "Exception"
  else if (0 <? c_insert_ad c) && (m <? 0) then Err "Exception"
  else Ok tt.
