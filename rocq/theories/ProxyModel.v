(** Model of the request handling in dashlivesim/dashlib/dash_proxy.py: which
    requests are answered with media, and from which source segment.  The bytes
    are produced by the filters modelled in other files; here a positive answer
    is the record [served] of everything passed to filter_media_segment. *)
From Verif Require Import Base ConfigModel.

(** The error replies of dash_proxy.py (error_response, 122-126), without text. *)
Inductive reason :=
| RBeforeFirstAst    (* 153 *)
| RAfterAet          (* 158 *)
| RServerDown        (* 171, 181 *)
| RInitTooEarly      (* 135 *)
| RBadReps           (* 206 *)
| RBeforeFirst       (* 238 *)
| RBeyondStop        (* 241 *)
| RBeyondLast        (* 245 *)
| RTooEarly          (* 255 *)
| RTooLate.          (* 260 *)

(** Arguments of filter_media_segment (307) plus seg_time for chunked delivery. *)
Record served := mkServed {
  sv_vod : Z;        (* vod_nr: number of the VoD file *)
  sv_nr : Z;         (* seg_nr *)
  sv_offset : Z;     (* offset_at_loop_start, seconds *)
  sv_lmsg : bool;    (* lmsg *)
  sv_time : Z;       (* seg_time, seconds *)
  sv_emsg : bool     (* cfg.emsg_last_seg at the time of the call *)
}.

(** What process_media_segment returns (dash_proxy.py 228-305): a refusal or a segment. *)
Inductive reply :=
| Refuse (r : reason)
| Serve (s : served).

(** get_timescale, dash_proxy.py:217-225 and 333-341. *)
Fixpoint get_timescale (rel : string) (l : list rep) : option Z :=
  match l with
  | [] => None
  | r :: rest => if String.eqb (rep_id r) rel then Some (rep_timescale r)
                 else get_timescale rel rest
  end.

(** The segment number of a request, dash_proxy.py:229-235: either the decimal
    file name or round(float(time)/seg_dur/timescale) for t<time>. *)
Definition request_nr (c : config) : result Z :=
  match fst (splitext (c_filename c)) with
  | EmptyString => Err "IndexError"
  | String "t" rest =>
      let* q := py_float rest in
      match get_timescale (c_rel_path c) (c_reps c) with
      | None => Err "TypeError"
      | Some ts =>
          if c_seg_dur c =? 0 then Err "ZeroDivisionError"
          else if ts =? 0 then Err "ZeroDivisionError"
          else Ok (py_round (q / inject_Z (c_seg_dur c) / inject_Z ts)%Q)
      end
  | b => py_int b
  end.

(** [seg_start_nr = cfg.start_nr == -1 and 1 or cfg.adjusted_start_number], 236. *)
Definition seg_start_nr (c : config) : result Z :=
  if c_start_nr c =? -1 then Ok 1 else adjusted_start_number c.

(** Truth value of an optional int: [if stop_number]. *)
Definition truthy (o : option Z) : bool :=
  match o with None => false | Some z => negb (z =? 0) end.

(** [seg_nr in cfg.last_segment_numbers], dash_proxy.py 246 *)
Definition Q_in (z : Z) (l : list Q) : bool := existsb (fun q => Qeq_bool (inject_Z z) q) l.

(** Loop position of a media time, dash_proxy.py:262-267: (vod_nr, offset). *)
Definition loop_position (c : config) (seg_time : Z) : result (Z * Z) :=
  let loop_duration := c_seg_dur c * c_vod_n c in
  let* nr_loops_done := py_div seg_time loop_duration in
  let* time_in_loop := py_mod seg_time loop_duration in
  let offset_at_loop_start := nr_loops_done * loop_duration in
  let* seg_nr_in_loop := py_div time_in_loop (c_seg_dur c) in
  let vod_nr := seg_nr_in_loop + c_vod_first c in
  if (0 <=? vod_nr - c_vod_first c) && (vod_nr - c_vod_first c <? c_vod_n c)
  then Ok (vod_nr, offset_at_loop_start)
  else Err "AssertionError".

(** Timing part of process_media_segment for a known number, dash_proxy.py:236-267. *)
Definition segment_reply (c : config) (now : Q) (seg_nr : Z) : result reply :=
  let d := c_seg_dur c in
  let* s := seg_start_nr c in
  if seg_nr <? s then Ok (Refuse RBeforeFirst) else
  let* stop := stop_number c in
  if truthy stop && (match stop with Some k => k <=? seg_nr | None => false end)
  then Ok (Refuse RBeyondStop) else
  let* beyond :=
    match c_last_nrs c with
    | [] => Ok false
    | _ => let* l := py_last (c_last_nrs c) in Ok (Qltb l (inject_Z seg_nr))
    end in
  if (beyond : bool) then Ok (Refuse RBeyondLast) else
  let lmsg := Q_in seg_nr (c_last_nrs c) in
  let media_time_at_ast := adjusted_pto c 0 1 in
  let seg_time := (seg_nr - s) * d + media_time_at_ast in
  let seg_ast := (seg_time + d - media_time_at_ast) + c_ast c in
  let* timing :=
    match c_ato c with
    | None => Ok None
    | Some ato =>
        if Qltb now (inject_Z seg_ast - ato)%Q then Ok (Some RTooEarly)
        else match c_tsbd c with
             | None => Err "TypeError"
             | Some tsbd =>
                 if Qltb (inject_Z (seg_ast + d + tsbd)) now && negb (truthy stop)
                 then Ok (Some RTooLate) else Ok None
             end
    end in
  match timing with
  | Some r => Ok (Refuse r)
  | None =>
      let* (vod_nr, off) := loop_position c seg_time in
      Ok (Serve (mkServed vod_nr seg_nr off lmsg seg_time (c_emsg_last c)))
  end.

(** process_media_segment, dash_proxy.py:210-294, up to the byte filtering; a
    request without a representation directory fails at cfg.reps[0]. *)
Definition process_media_segment (c : config) (now : Q) : result reply :=
  let* seg_nr := request_nr c in
  let* r := segment_reply c now seg_nr in
  match r with
  | Refuse _ => Ok r
  | Serve _ => match c_reps c with
               | [] => Err "IndexError"
               | _ => Ok r
               end
  end.

(** Parse one baseurl setting "uX_dY", dash_proxy.py:162-164. *)
Definition parse_updown (s : string) : result ((ascii * Z) * (ascii * Z)) :=
  match split_all "_" s with
  | [a; b] =>
      match a, b with
      | String ca ta, String cb tb =>
          let* da := py_int ta in let* db := py_int tb in Ok ((ca, da), (cb, db))
      | _, _ => Err "ValueError"
      end
  | _ => Err "ValueError"
  end.

(** int(ceil(60.0/total)), dash_proxy.py:166. *)
Definition nr_updown_loops (total : Z) : Z := - ((-60) / total).

(** The u/d loop, dash_proxy.py:169-177. *)
Fixpoint ud_loop (c : config) (now : Q) (m60 dur1 total : Z) (is : list Z)
         (resp : option reply) : result (option reply) :=
  match is with
  | [] => Ok resp
  | i :: rest =>
      if (i * total + dur1 <? m60) && (m60 <=? (i + 1) * total)
      then Ok (Some (Refuse RServerDown))
      else if m60 =? i * total + dur1
      then let* r := process_media_segment (set_emsg_last true c) now in
           ud_loop c now m60 dur1 total rest (Some r)
      else ud_loop c now m60 dur1 total rest resp
  end.

(** The d/u loop, dash_proxy.py:179-182. *)
Definition du_down (m60 dur1 total : Z) (is : list Z) : bool :=
  existsb (fun i => (i * total <? m60) && (m60 <=? i * total + dur1)) is.

(** [range(n)], dash_proxy.py 169, 179 *)
Definition zrange (n : Z) : list Z := map Z.of_nat (seq 0 (Z.to_nat n)).

(** dash_proxy.py 160-184: a media segment request after the start/end checks. *)
Definition get_m4s (c : config) (now : Q) : result reply :=
  let* resp :=
    match c_multi_url c with
    | [u] =>
        let* ((ca, dur1), (cb, dur2)) := parse_updown u in
        let total := dur1 + dur2 in
        if total =? 0 then Err "ZeroDivisionError" else
        let is := zrange (nr_updown_loops total) in
        let m60 := (py_int_of_Q now) mod 60 in
        if Ascii.eqb ca "u" && Ascii.eqb cb "d" then
          ud_loop c now m60 dur1 total is None
        else if Ascii.eqb ca "d" && Ascii.eqb cb "u" then
          Ok (if du_down m60 dur1 total is then Some (Refuse RServerDown) else None)
        else Ok None
    | _ => Ok None
    end in
  match resp with
  | Some r => Ok r
  | None => process_media_segment c now
  end.

(** process_thumbnail, dash_proxy.py:326-383.  Every refusal there calls
    error_response with one argument instead of two, which raises TypeError. *)
Definition thumbnail_reply (c : config) (now : Q) (seg_nr : Z) : result reply :=
  let d := c_seg_dur c in
  let s := if c_start_nr c =? -1 then 1 else c_start_nr c in
  if seg_nr <? s then Err "TypeError: error_response" else
  let* beyond :=
    match c_last_nrs c with
    | [] => Ok false
    | _ => let* l := py_last (c_last_nrs c) in Ok (Qltb l (inject_Z seg_nr))
    end in
  if (beyond : bool) then Err "TypeError: error_response" else
  let seg_time := (seg_nr - s) * d + c_ast c in
  let seg_ast := seg_time + d in
  let* _ :=
    match c_ato c with
    | None => Ok tt
    | Some ato =>
        if Qltb now (inject_Z seg_ast - ato)%Q then Err "TypeError: error_response"
        else match c_tsbd c with
             | None => Err "TypeError"
             | Some tsbd =>
                 if Qltb (inject_Z (seg_ast + d + tsbd)) now
                 then Err "TypeError: error_response" else Ok tt
             end
    end in
  let* (vod_nr, off) := loop_position c (seg_time - c_ast c) in
  Ok (Serve (mkServed vod_nr seg_nr off false (seg_time - c_ast c) false)).

(** process_thumbnail, dash_proxy.py 326-374: with the number of the request *)
Definition process_thumbnail (c : config) (now : Q) : result reply :=
  let* seg_nr := request_nr c in thumbnail_reply c now seg_nr.

(** first_segment_ast, dash_proxy.py:145-149. *)
Definition first_segment_ast (c : config) : Q :=
  match c_ato c with
  | None => inject_Z (c_ast c)
  | Some ato => (inject_Z (c_ast c + c_seg_dur c) - ato)%Q
  end.

(** get_media, dash_proxy.py:141-187. *)
Definition get_media (c : config) (now : Q) : result reply :=
  if negb (str_in (c_ext c) [".m4s"; ".jpg"]%string) then Err "ValueError" else
  if Qltb now (first_segment_ast c) then Ok (Refuse RBeforeFirstAst)
  else if match c_aet c with
          | None => false
          | Some e => Qltb (e + 60)%Q (inject_Z (py_int_of_Q now))
          end then Ok (Refuse RAfterAet)
  else if String.eqb (c_ext c) ".m4s" then get_m4s c now
  else process_thumbnail c now.

(** get_init, dash_proxy.py:129-138, and the choice in process_init_segment
    (190-207): [Ok true] means that an init segment is produced, [Ok false] an
    error reply. *)
Definition get_init (c : config) (now : Q) : result bool :=
  if negb (String.eqb (c_ext c) ".mp4") then Err "ValueError"
  else if py_int_of_Q now <? c_ast c - c_init_off c then Ok false
  else match c_reps c with
       | [_] => Ok true
       | [_; _] => Ok true
       | _ => Ok false
       end.
