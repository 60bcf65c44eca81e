(** Model of dashlivesim/dashlib/mpdprocessor.py (the class MpdProcessor) and of
    generate_dynamic_mpd and get_mpd in dashlivesim/dashlib/mpd_proxy.py.

    The manifest is an element tree.  Left out: namespaces (all tags are in the
    DASH namespace; the parser and the writer are ElementTree's), the white
    space in text and tail, text of other elements than BaseURL and Location.
    The result is the tree before it is written as text (get_full_xml). *)
From Verif Require Import Base ConfigModel ProxyModel TimeModel StrModel TimelineModel PeriodModel.
Local Open Scope string_scope.
Open Scope Z_scope.

(** An ElementTree element: tag, attributes in order, text, children. *)
Inductive xml := Elem (tag : string) (attrs : list (string * string)) (text : string) (kids : list xml).
(** [elem.tag] (mpdprocessor.py 96-407) *)
Definition x_tag (x : xml) : string := let 'Elem t _ _ _ := x in t.
(** [elem.attrib] *)
Definition x_attrs (x : xml) : list (string * string) := let 'Elem _ a _ _ := x in a.
(** [elem.text] *)
Definition x_text (x : xml) : string := let 'Elem _ _ t _ := x in t.
(** [elem[:]] *)
Definition x_kids (x : xml) : list xml := let 'Elem _ _ _ k := x in k.
(** [elem.get(key)] *)
Fixpoint attr (key : string) (l : list (string * string)) : option string :=
  match l with
  | [] => None
  | (k, v) :: r => if String.eqb k key then Some v else attr key r
  end.
(** [elem.get(key)], the key in the attributes of an element *)
Definition get (key : string) (x : xml) : option string := attr key (x_attrs x).
(** [elem.set(key, value)] *)
Fixpoint attr_set (key value : string) (l : list (string * string)) : list (string * string) :=
  match l with
  | [] => [(key, value)]
  | (k, v) :: r => if String.eqb k key then (k, value) :: r else (k, v) :: attr_set key value r
  end.
(** [del elem.attrib[key]] when the key is there *)
Definition attr_del (key : string) (l : list (string * string)) : list (string * string) :=
  filter (fun kv => negb (String.eqb (fst kv) key)) l.
(** [elem.set(key, value)] on an element *)
Definition set (key value : string) (x : xml) : xml :=
  let 'Elem t a s k := x in Elem t (attr_set key value a) s k.
(** [del elem.attrib[key]] (mpdprocessor.py 284-288) *)
Definition del (key : string) (x : xml) : xml := let 'Elem t a s k := x in Elem t (attr_del key a) s k.
(** insert, remove and append on the children, all at once *)
Definition set_kids (k : list xml) (x : xml) : xml := let 'Elem t a s _ := x in Elem t a s k.
(** mpdprocessor.py 276-282: set when the key is in the data *)
Definition set_opt (key : string) (value : option string) (x : xml) : xml :=
  match value with None => x | Some v => set key v x end.
(** [list.insert(pos, y)] for pos >= 0 *)
Definition insert_at {A} (pos : nat) (y : A) (l : list A) : list A := firstn pos l ++ y :: skipn pos l.
(** [elem.tag == add_ns(t)] (mpdprocessor.py 98, 150, 157, 199) *)
Definition is_tag (t : string) (x : xml) : bool := String.eqb (x_tag x) t.

(** ** Formatting *)
(** timeformatconversions.py 54-69 on a float (an exact rational here; divmod
    and %d as floor and truncation). *)
Definition seconds_to_iso_duration_Q (q : Q) : string :=
  let days := Qfloor (q / inject_Z 86400) in
  let rest := (q - inject_Z (days * 86400))%Q in
  let hours := Qfloor (rest / inject_Z 3600) in
  let rest := (rest - inject_Z (hours * 3600))%Q in
  let minutes := Qfloor (rest / inject_Z 60) in
  let seconds := (rest - inject_Z (minutes * 60))%Q in
  let p := "P" ++ (if 0 <? days then print_Z days ++ "D" else "") ++ "T"
     ++ (if 0 <? hours then print_Z hours ++ "H" else "")
     ++ (if 0 <? minutes then print_Z minutes ++ "M" else "") in
  if Qltb 0 seconds || String.eqb p "PT" then p ++ print_Z (py_int_of_Q seconds) ++ "S" else p.
(** ['%f' % q]: six decimals, rounded half to even (the exact value is rounded
    here, not its double). *)
Definition micro (q : Q) : Z := py_round (q * inject_Z 1000000)%Q.
(** the six decimals of '%f' *)
Definition pad6 (n : Z) : string :=
  let s := print_Z n in drop (String.length s) "000000" ++ s.
(** ['%f' % q] *)
Definition print_f (q : Q) : string :=
  let m := micro q in
  (if m <? 0 then "-" else "") ++ print_Z (Z.abs m / 1000000) ++ "." ++ pad6 (Z.abs m mod 1000000).

(** ** Input data of the processor *)
(** mpd_proxy.py 62-109: what generate_dynamic_mpd puts into mpd_data and
    mpd_proc_cfg before the periods are generated. *)
Record mpd_data := mk_mpd_data {
  md_static : bool;                 (* 'type' is "static" (line 89) *)
  md_mup : string;                  (* minimumUpdatePeriod *)
  md_mpdur : option string;         (* mediaPresentationDuration *)
  md_tsbd : string;                 (* timeShiftBufferDepth *)
  md_ast : string;                  (* availabilityStartTime *)
  md_aet : option string;           (* availabilityEndTime *)
  md_maxseg : string;               (* maxSegmentDuration *)
  md_spd : option string;           (* suggestedPresentationDelay *)
  md_ato : option Q;                (* availability_time_offset_in_s, None for -1 *)
  md_atc : option string;           (* availabilityTimeComplete in mpd_data *)
  md_lowlat : bool;                 (* ll_data is filled (chunk duration given) *)
  md_add_profile : bool;            (* 'add_profiles' (line 109) *)
  md_utc : list string              (* utc_timing_methods, with line 108 *)
}.
(** mpd_proxy.py 62-109.  Line 72 raises on a missing depth.  publishTime in mpd_data
    (line 75) is not used for the output; make_timestamp does not fail.  *)
Definition mpd_data_of (c : config) (now : Z) : result mpd_data :=
  match c_tsbd c with
  | None => Err "TypeError"
  | Some tsbd =>
      let chunked := match c_chunkdur c with Some q => Qltb 0 q | None => false end in
      Ok (mk_mpd_data
        (match c_stop_time c with Some s => s <? now | None => false end)
        (match c_mup c with Some q => seconds_to_iso_duration_Q q | None => "P100Y" end)
        (option_map seconds_to_iso_duration_Q (c_mpdur c))
        (seconds_to_iso_duration tsbd)
        (make_timestamp (c_ast c))
        (match c_aet c with
         | Some q => if Qeq_bool q 0 then None else Some (make_timestamp_Q q)
         | None => None
         end)
        ("PT" ++ print_Z (c_seg_dur c) ++ "S")
        (option_map seconds_to_iso_duration (c_spd c))
        (c_ato c)
        (if c_atc c then None else Some "false")
        (match c_chunkdur c with Some _ => true | None => false end)
        chunked
        (if chunked then match c_utc c with [] => ["httpiso"] | l => l end else c_utc c))
  end.

(** ** process_mpd, mpdprocessor.py 96-133 *)
Definition scte35_profile : string := "http://dashif.org/guidelines/adin/app".
(** mpd_proxy.py 109: the low-latency profile *)
Definition lowlat_profile : string := "http://www.dashif.org/guidelines/low-latency-live-v5".
(** The attributes after process_mpd.  A missing profiles attribute raises when
    one of lines 100-115 needs it. *)
Definition process_mpd (c : config) (d : mpd_data) (mup : string) (now : Z) (x : xml) : result xml :=
  if negb (is_tag "MPD" x) then Err "AssertionError"
  else
    let x := set "type" (if md_static d then "static" else "dynamic") x in
    let* x := if 0 <? c_scte35 c then
                match get "profiles" x with
                | None => Err "AttributeError"
                | Some p => Ok (if contains scte35_profile p then x else set "profiles" (p ++ "," ++ scte35_profile) x)
                end
              else Ok x in
    let* x := if c_stl_loss c then
                match get "profiles" x with
                | None => Err "AttributeError"
                | Some p => Ok (if contains "dash-if-simple" p
                                then set "profiles" (replace_all "dash-if-simple" "dash-if-main" p) x else x)
                end
              else Ok x in
    let* x := if md_add_profile d then
                match get "profiles" x with
                | None => Err "AttributeError"
                | Some p =>
                    let ps := split_all "," p in
                    Ok (set "profiles" (join "," (if str_in lowlat_profile ps then ps else ps ++ [lowlat_profile])) x)
                end
              else Ok x in
    let x := set "availabilityStartTime" (md_ast d) x in
    let x := set_opt "availabilityEndTime" (md_aet d) x in
    let x := if md_static d || match md_mpdur d with Some _ => true | None => false end then x
             else set "timeShiftBufferDepth" (md_tsbd d) x in
    let x := if md_static d then x else set "minimumUpdatePeriod" mup x in
    let x := set "maxSegmentDuration" (md_maxseg d) x in
    let x := set_opt "mediaPresentationDuration" (md_mpdur d) x in
    let x := set_opt "suggestedPresentationDelay" (md_spd d) x in
    let x := match md_mpdur d with None => del "mediaPresentationDuration" x | Some _ => x end in
    let x := set "publishTime" (make_timestamp now) x in
    let x := set "id" "Config part of url maybe?" x in
    Ok (if c_segtl c || c_segtlnr c then
          let x := del "maxSegmentDuration" x in
          if md_static d then x else set "minimumUpdatePeriod" "PT0S" x
        else x).

(** ** Children of MPD *)
(** create_descriptor_elem, lines 409-422 *)
Definition descriptor (name scheme value : string) (message : option string) : xml :=
  Elem name (("schemeIdUri", scheme) :: (if String.eqb value "" then [] else [("value", value)])) ""
    (match message with
     | Some m => if String.eqb name "EventStream" && negb (String.eqb m "")
                 then [Elem "Event" [("messageData", m)] "" []] else []
     | None => []
     end).
(** insert_baseurl, lines 211-222: the element; [lowlat] means that the offsets
    are not in mpd_data (ato 0, atc 'true'). *)
Definition baseurl_elem (d : mpd_data) (url : string) : xml :=
  let ato :=
    if md_lowlat d then None
    else match md_ato d with
         | None => Some "INF"
         | Some q => if micro q =? -1000000 then Some "INF"
                     else if 0 <? micro q then Some (print_f q) else None
         end in
  let atc := if md_lowlat d then None else md_atc d in
  Elem "BaseURL" ((match ato with Some s => [("availabilityTimeOffset", s)] | None => [] end)
                  ++ (match atc with Some s => [("availabilityTimeComplete", s)] | None => [] end)) url [].

(** mpdprocessor.py 168-175: every part with the key baseurl is emptied. *)
Definition blank_baseurl (part : string) : string :=
  match split_first "_" part with
  | Some (key, _) => if String.eqb key "baseurl" then "" else part
  | None => part
  end.
(** [l.insert(-1, x)]: before the last element. *)
Definition insert_before_last {A} (x : A) (l : list A) : list A :=
  match l with [] => [x] | _ => removelast l ++ [x; last l x] end.
(** mpdprocessor.py 164-181: one BaseURL per entry of 'urls'; the split must give two
    parts.  The inserted part is deleted again by [del url_parts[-2]]. *)
Definition multi_base_urls (base : string) (urls : list string) : result (list string) :=
  match split_slashes base with
  | [header; body] =>
      let parts := map blank_baseurl (split_all "/" body) in
      Ok (map (fun u => header ++ "//" ++ join "/" (insert_before_last ("baseurl_" ++ u) parts) ++ "/") urls)
  | _ => Err "ValueError"
  end.

(** mpdprocessor.py 186-189, re.sub of "/key_[-0-9]+" by [new]: digits are ASCII here. *)
Definition rel_char (a : ascii) : bool := Ascii.eqb a "-" || match digit_val a with Some _ => true | None => false end.
(** mpdprocessor.py 186-189: the length of the match of [-0-9]+ at the head *)
Fixpoint count_rel (s : string) : nat :=
  match s with String a s' => if rel_char a then S (count_rel s') else O | EmptyString => O end.
(** mpdprocessor.py 186-189: re.sub from left to right; [skip] characters are part of a match *)
Fixpoint sub_rel (key new s : string) (skip : nat) : string :=
  match s with
  | EmptyString => EmptyString
  | String a s' =>
      match skip with
      | S k => sub_rel key new s' k
      | O =>
          let n := if starts_with key s then count_rel (drop (String.length key) s) else O in
          match n with
          | O => String a (sub_rel key new s' 0)
          | S _ => new ++ sub_rel key new s' (String.length key + n - 1)
          end
      end
  end.
(** mpdprocessor.py 185-191; a missing start or stop time raises. *)
Definition location_url (c : config) (full : string) : result string :=
  match c_start_time c, c_stop_time c with
  | Some a, Some b =>
      Ok (sub_rel "/stoprel_" ("/stop_" ++ print_Z b) (sub_rel "/startrel_" ("/start_" ++ print_Z a) full 0) 0)
  | _, _ => Err "TypeError"
  end.
(** insert_service_description, lines 238-255 *)
Definition service_description : xml :=
  Elem "ServiceDescription" [("id", "0")] ""
    [Elem "Latency" [("min", "2000"); ("max", "6000"); ("target", "4000"); ("referenceId", "0")] "" [];
     Elem "PlaybackRate" [("min", "0.96"); ("max", "1.04")] "" []].
(** insert_producer_reference, lines 257-268 *)
Definition producer_reference : xml :=
  Elem "ProducerReferenceTime" [("id", "0"); ("type", "encoder"); ("wallClockTime", "1970-01-01T00:00:00"); ("presentationTime", "0")] ""
    [descriptor "UTCTiming" "urn:mpeg:dash:utc:http-iso:2014" "http://time.akamai.com/?iso" None].
(** insert_utc_timings, lines 424-453; [wall] is the text of the current time
    (time.time()), [head] the URL for the head method. *)
Definition utc_timing (wall head method : string) : result xml :=
  if String.eqb method "direct" then Ok (descriptor "UTCTiming" "urn:mpeg:dash:utc:direct:2014" wall None)
  else if String.eqb method "head" then Ok (descriptor "UTCTiming" "urn:mpeg:dash:utc:http-head:2014" head None)
  else if String.eqb method "ntp" then Ok (descriptor "UTCTiming" "urn:mpeg:dash:utc:ntp:2014" "1.de.pool.ntp.org" None)
  else if String.eqb method "sntp" then Ok (descriptor "UTCTiming" "urn:mpeg:dash:utc:sntp:2014" "time.kfki.hu" None)
  else if String.eqb method "httpxsdate" then Ok (descriptor "UTCTiming" "urn:mpeg:dash:utc:http-xsdate:2014" "http://time.akamai.com/?iso" None)
  else if String.eqb method "httpiso" then Ok (descriptor "UTCTiming" "urn:mpeg:dash:utc:http-iso:2014" "http://time.akamai.com/?iso" None)
  else Err "MpdModifierError".
(** mpdprocessor.py 424-453: the loop over the methods *)
Fixpoint utc_timings (wall head : string) (methods : list string) : result (list xml) :=
  match methods with
  | [] => Ok []
  | m :: r => let* e := utc_timing wall head m in let* es := utc_timings wall head r in Ok (e :: es)
  end.

(** ** update_periods, lines 270-407 *)
(** The SegmentTimeline element. *)
Definition s_xml (s : selem) : xml :=
  Elem "S" ((match s_t s with Some t => [("t", print_Z t)] | None => [] end) ++ [("d", print_Z (s_d s))]
            ++ (match s_r s with Some r => [("r", print_Z r)] | None => [] end)) "" [].
(** segtimeline.py 116-142 and 225-234: the SegmentTimeline element *)
Definition timeline_xml (l : list selem) : xml := Elem "SegmentTimeline" [] "" (map s_xml l).

(** The generators with their start_number, lines 311-315: tables of 'video'
    and 'audio'. *)
Record gens := mk_gens { g_video : tgen; g_video_nr : option Z; g_audio : tgen; g_audio_nr : option Z }.
(** mpdprocessor.py 313-315 and segtimeline.py 49-68: one generator *)
Definition make_generator (c : config) (tables : string -> result (list entry)) (ct : string) : result tgen :=
  match List.find (fun p => String.eqb (fst p) ct) (c_media_data c) with
  | None => Err "KeyError"
  | Some (_, m) =>
      match m_dat m with
      | None => Err "UnboundLocalError"
      | Some f => let* t := tables f in Ok (generator c (m_timescale m) t)
      end
  end.
(** mpdprocessor.py 311-315: both generators *)
Definition make_generators (c : config) (tables : string -> result (list entry)) : result gens :=
  let* v := make_generator c tables "video" in
  let* a := make_generator c tables "audio" in
  Ok (mk_gens v None a None).
(** mpdprocessor.py 371: segtimeline_generators[content_type] *)
Definition pick_generator (g : gens) (ct : option string) : result (tgen * option Z) :=
  match ct with
  | Some s => if String.eqb s "video" then Ok (g_video g, g_video_nr g)
              else if String.eqb s "audio" then Ok (g_audio g, g_audio_nr g) else Err "KeyError"
  | None => Err "KeyError"
  end.
(** segtimeline.py 143: self.start_number of the generator used *)
Definition put_number (g : gens) (ct : option string) (n : option Z) : gens :=
  match ct with
  | Some s => if String.eqb s "video" then mk_gens (g_video g) n (g_audio g) (g_audio_nr g)
              else mk_gens (g_video g) (g_video_nr g) (g_audio g) n
  | None => g
  end.

(** Everything update_periods reads besides the tree. *)
Record penv := mk_penv {
  pe_cfg : config;
  pe_now : Z;
  pe_emsg : bool;                (* self.emsg_last_seg *)
  pe_data : mpd_data;
  pe_callback_url : result string  (* BaseURLSegmented; Err when unbound *)
}.
(** mpdprocessor.py 311: self.segtimeline or self.segtimeline_nr *)
Definition pe_timeline (e : penv) : bool := c_segtl (pe_cfg e) || c_segtlnr (pe_cfg e).

(** set_attribs (274-282) for presentationTimeOffset: the value "0" is skipped
    ([key in elem] looks at the children and is false). *)
Definition set_pto (p : ptov) (x : xml) : xml :=
  if String.eqb (pto_str p) "0" then x else set "presentationTimeOffset" (pto_str p) x.
(** truth value of the presentation time offset (mpdprocessor.py 332) *)
Definition pto_truthy (p : ptov) : bool :=
  match p with PStr s => negb (String.eqb s "") | PInt z => negb (z =? 0) end.
(** [pto != 0] of line 293 and [pto != "0"] of line 391 *)
Definition pto_not_zero_int (p : ptov) : bool := match p with PStr _ => true | PInt z => negb (z =? 0) end.
(** [pto != "0"], mpdprocessor.py 391 *)
Definition pto_not_zero_str (p : ptov) : bool := match p with PStr s => negb (String.eqb s "0") | PInt _ => true end.
(** [int(pto)], mpdprocessor.py 394 *)
Definition pto_int (p : ptov) : result Z := match p with PStr s => py_int s | PInt z => Ok z end.
(** mpdprocessor.py 209: data['periodOffset'] >= 0 *)
Definition at_period_level (c : config) : bool := 0 <=? c_peroff c.

(** str(start_number) of line 403: None prints as "None". *)
Definition number_str (n : option Z) : string := match n with Some z => print_Z z | None => "None" end.

(** mpdprocessor.py 360-406: one SegmentTemplate. *)
Definition update_template (e : penv) (p : pdata) (ct : option string) (g : option gens) (x : xml)
    : result (option gens * xml) :=
  let c := pe_cfg e in
  let x := set "startNumber" (pd_start_number p) x in
  let x := if pto_truthy (pd_pto p) && negb (at_period_level c) then set_pto (pd_pto p) x else x in
  let x := if md_lowlat (pe_data e) then
             set "availabilityTimeComplete" "false"
               (set "availabilityTimeOffset" (match md_ato (pe_data e) with Some q => print_f q | None => "-1.000000" end) x)
           else x in
  let x := if String.eqb (pd_start_number p) "-1" then del "startNumber" x else x in
  match g with
  | None => Ok (None, x)
  | Some g =>
      let* (gen, nr0) := pick_generator g ct in
      let* (w, use_closest) := segtimeline_window c (pe_now e) (pd_start_s p) (pd_period_duration_s p) in
      let* tl := create_segtimeline gen (fst w) (snd w) use_closest nr0 in
      let x := del "duration" x in
      let x := set "timescale" (print_Z (tg_timescale gen)) x in
      let* x := if pto_not_zero_str (pd_pto p) && negb (at_period_level c) then
                  let* z := pto_int (pd_pto p) in Ok (set "presentationTimeOffset" (print_Z (z * tg_timescale gen)) x)
                else Ok x in
      match get "media" x with
      | None => Err "KeyError"
      | Some media =>
          match tl with
          | NoTimeline => Err "TypeError"
          | Timeline l nr =>
              let x := if c_segtl c then del "startNumber" x
                       else set "startNumber" (number_str nr) x in
              let x := set "media" (if c_segtl c then replace_all "$Number$" "t$Time$" media else media) x in
              Ok (Some (put_number g ct nr), set_kids (timeline_xml l :: x_kids x) x)
          end
      end
  end.

(** A pass over the children with tag [t] (findall and in-place updates). *)
Fixpoint update_tagged {S} (t : string) (f : S -> xml -> result (S * xml)) (s : S) (l : list xml) : result (S * list xml) :=
  match l with
  | [] => Ok (s, [])
  | x :: r =>
      if is_tag t x then
        let* (s1, x1) := f s x in
        let* (s2, r2) := update_tagged t f s1 r in
        Ok (s2, x1 :: r2)
      else
        let* (s2, r2) := update_tagged t f s r in
        Ok (s2, x :: r2)
  end.

(** mpdprocessor.py 343-406: one AdaptationSet; the elements inserted first come in the
    order of lines 345-358. *)
Definition update_adaptation_set (e : penv) (p : pdata) (last_id : string) (g : option gens) (x : xml)
    : result (option gens * xml) :=
  let ct := get "contentType" x in
  let kids := x_kids x in
  let kids := if pe_emsg e then insert_at 0 (descriptor "InbandEventStream" "urn:mpeg:dash:event:2012" "1" None) kids else kids in
  let scte := match ct with Some s => String.eqb s "video" && (0 <? c_scte35 (pe_cfg e)) | None => false end in
  let kids := if scte then insert_at 0 (descriptor "InbandEventStream" "urn:scte:scte35:2013:xml" "999" None) kids else kids in
  let pos := if scte then 1%nat else 0%nat in
  let kids := if c_cont_mp (pe_cfg e) && negb (String.eqb last_id "-1")
              then insert_at pos (descriptor "SupplementalProperty" "urn:mpeg:dash:period_continuity:2014" last_id None) kids
              else kids in
  let kids := if md_lowlat (pe_data e) then insert_at pos producer_reference kids else kids in
  let* (g1, kids1) := update_tagged "SegmentTemplate" (fun g x => update_template e p ct g x) g kids in
  Ok (g1, set_kids kids1 x).

(** mpdprocessor.py 325-407: one Period. *)
Definition update_period (e : penv) (p : pdata) (last_id : string) (g : option gens) (x : xml) : result (option gens * xml) :=
  let x := set "start" (pd_start p) (set "id" (pd_id p) x) in
  let x := match pd_etp p with Some t => set "duration" ("PT" ++ print_Z t ++ "S") x | None => x end in
  let x := set_opt "duration" (pd_period_duration p) x in
  let x := if pto_truthy (pd_pto p) && at_period_level (pe_cfg e) then
             set_kids (insert_at 0 (Elem "SegmentBase"
               (if pto_not_zero_int (pd_pto p) then [("presentationTimeOffset", pto_str (pd_pto p))] else []) "" []) (x_kids x)) x
           else x in
  let* x := if pd_callback p then
              let* u := pe_callback_url e in
              Ok (set_kids (insert_at 0 (descriptor "EventStream" "urn:mpeg:dash:event:callback:2015" "1" (Some u)) (x_kids x)) x)
            else Ok x in
  let* (g1, kids) := update_tagged "AdaptationSet" (fun g x => update_adaptation_set e p last_id g x) g (x_kids x) in
  Ok (g1, set_kids kids x).

(** The loop of line 324 over zip(periods, period_data), as a pass over the
    children of MPD. *)
Fixpoint update_period_list (e : penv) (ps : list pdata) (last_id : string) (g : option gens) (l : list xml) : result (list xml) :=
  match l with
  | [] => Ok []
  | x :: r =>
      if is_tag "Period" x then
        match ps with
        | [] => Ok l
        | p :: ps' =>
            let* (g1, x1) := update_period e p last_id g x in
            let* r1 := update_period_list e ps' (pd_id p) g1 r in
            Ok (x1 :: r1)
        end
      else let* r1 := update_period_list e ps last_id g r in Ok (x :: r1)
  end.

(** mpdprocessor.py 317-321 *)
Definition callback_url (kids : list xml) : result string :=
  match List.find (is_tag "BaseURL") kids with
  | Some b =>
      match split_all "/" (x_text b) with
      | p0 :: _ :: p2 :: p3 :: _ => Ok (p0 ++ "//" ++ p2 ++ "/" ++ p3 ++ "/mpdcallback/")
      | _ => Err "UnboundLocalError"
      end
  | None => Err "UnboundLocalError"
  end.
(** mpdprocessor.py 270-407 [update_periods] on the children of MPD *)
Definition update_periods (c : config) (now : Z) (emsg : bool) (d : mpd_data) (tables : string -> result (list entry))
    (ps : list pdata) (kids : list xml) : result (list xml) :=
  let* g := if c_segtl c || c_segtlnr c then let* g := make_generators c tables in Ok (Some g) else Ok None in
  update_period_list (mk_penv c now emsg d (callback_url kids)) ps "-1" g kids.

(** ** process_mpd_children, lines 137-209 *)
Fixpoint count_leading (t : string) (l : list xml) : nat :=
  match l with x :: r => if is_tag t x then S (count_leading t r) else O | [] => O end.
(** mpdprocessor.py 198-204: position (from [pos] on) of the first Period. *)
Fixpoint find_tag (t : string) (l : list xml) : option nat :=
  match l with [] => None | x :: r => if is_tag t x then Some O else option_map S (find_tag t r) end.

(** Everything outside the configuration: URLs, the clock text of line 432, the
    dat files. *)
Record menv := mk_menv {
  me_full_url : string;     (* base_url of the provider and all url parts, line 110 *)
  me_head_url : string;
  me_wall : string;
  me_tables : string -> result (list entry)
}.

(** mpdprocessor.py 153-191: BaseURL and Location.  A BaseURL in the source is replaced
    in place or removed; its attributes stay. *)
Definition insert_urls (c : config) (e : menv) (d : mpd_data) (kids : list xml) : result (list xml * nat) :=
  let pos := count_leading "ProgramInformation" kids in
  match nth_error kids pos with
  | None => Err "IndexError"
  | Some next =>
      let* (kids, pos) :=
        if is_tag "BaseURL" next then
          if c_add_loc c then Ok ((firstn pos kids ++ skipn (S pos) kids)%list, pos)
          else Ok ((firstn pos kids ++ Elem (x_tag next) (x_attrs next) (c_base_url c) (x_kids next) :: skipn (S pos) kids)%list, S pos)
        else if c_add_loc c then Ok (kids, pos)
        else
          let* urls := match c_multi_url c with [] => Ok [c_base_url c] | us => multi_base_urls (c_base_url c) us end in
          Ok ((firstn pos kids ++ map (baseurl_elem d) urls ++ skipn pos kids)%list, (pos + List.length urls)%nat) in
      if c_add_loc c then
        let* u := location_url c (me_full_url e) in
        Ok (insert_at pos (Elem "Location" [] u []) kids, S pos)
      else Ok (kids, pos)
  end.

(** mpdprocessor.py 137-209 [process_mpd_children] *)
Definition process_mpd_children (c : config) (e : menv) (now : Z) (emsg : bool) (d : mpd_data) (ps : list pdata) (kids : list xml)
    : result (list xml) :=
  let* (kids, pos) := insert_urls c e d kids in
  let '(kids, pos) := if md_lowlat d then (insert_at pos service_description kids, S pos) else (kids, pos) in
  match find_tag "Period" (skipn pos kids) with
  | None => Err "MpdModifierError"
  | Some off =>
      (* line 200 takes the element at the old position *)
      match nth_error kids pos with
      | None => Err "IndexError"
      | Some period =>
          let pos := (pos + off)%nat in
          let kids := (firstn (S pos) kids ++ repeat period (List.length ps - 1) ++ skipn (S pos) kids)%list in
          let* utcs := utc_timings (me_wall e) (me_head_url e) (md_utc d) in
          let at_ := (pos + List.length ps)%nat in
          let kids := (firstn at_ kids ++ utcs ++ skipn at_ kids)%list in
          update_periods c now emsg d (me_tables e) ps kids
      end
  end.

(** ** generate_dynamic_mpd, mpd_proxy.py 62-115 *)
Definition generate_dynamic_mpd (c : config) (e : menv) (source : xml) (emsg : bool) (now : Z) : result xml :=
  let* d := mpd_data_of c now in
  let* sn := adjusted_start_number c in
  let* (mup, ps) := generate_period_data c sn (adjusted_pto c 0 1) now in
  let* root := process_mpd c d (match mup with Some s => s | None => md_mup d end) now source in
  let* kids := process_mpd_children c e now emsg d ps (x_kids root) in
  Ok (set_kids kids root).

(** ** get_mpd, mpd_proxy.py 10-59, without the xlink step of lines 56-58 (see
    XlinkModel.v) and the choice of the source file.  parse_updown (lines 36-38)
    and nr_updown_loops (line 40) are the same as for media requests. *)
(** mpd_proxy.py 43-54: the last response generated in the loop; [em] is
    cfg.emsg_last_seg. *)
Fixpoint loss_loop (gen : bool -> Z -> result xml) (em : bool) (now m dur1 total : Z) (is : list Z) (resp : xml) : result xml :=
  match is with
  | [] => Ok resp
  | i :: rest =>
      if (i * total + dur1 <? m) && (m <=? (i + 1) * total) then gen em (now - m + (i * total + dur1))
      else if m =? i * total + dur1 then
        let* r := gen true now in loss_loop gen false now m dur1 total rest r
      else loss_loop gen em now m dur1 total rest resp
  end.
(** mpd_proxy.py 10-59 [get_mpd], see above *)
Definition get_mpd (c : config) (e : menv) (source : xml) (now : Z) : result xml :=
  let* _ := mpd_option_checks c in
  let gen := generate_dynamic_mpd c e source in
  let* resp := gen (c_emsg_last c) now in
  match c_multi_url c with
  | u :: _ =>
      if c_stl_loss c then
        let* ((a, dur1), (b, dur2)) := parse_updown u in
        let total := dur1 + dur2 in
        if total =? 0 then Err "ZeroDivisionError"
        else if Ascii.eqb a "u" && Ascii.eqb b "d" then
          loss_loop gen (c_emsg_last c) now (now mod 60) dur1 total (ProxyModel.zrange (nr_updown_loops total)) resp
        else Ok resp
      else Ok resp
  | [] => Ok resp
  end.
