(** mod_wsgi/mod_dashlivesim.py: the WSGI application, on top of the models of
    dash_proxy.py. *)
From Verif Require Import Base BytesModel StrModel ConfigModel ProxyModel Mp4Model InitModel MediaModel SegmentModel
  MuxModel ChunkModel.
Local Open Scope string_scope.
Open Scope Z_scope.

(** ** The provider: dash_proxy.py 88-126 and the choice of lines 153-169 of
    mod_dashlivesim.py *)
(** The machine: configuration files, media files by content, path, number and
    extension, init files by content, path and name, the text of manifests and
    xlink periods (MpdModel.v has the tree before it is written), and the text
    of the refusals (their numbers are left out of [reason]). *)
Record site := mk_site {
  st_vod : string -> result vodcfg;
  st_files : string -> file_store;
  st_inits : string -> string -> string -> result bytes;
  st_mpd : config -> list string -> Q -> result string;
  st_text : reason -> config -> Q -> string
}.
(** What get_media, get_init and get_mpd return: bytes, text, a ChunkedSegment,
    or the dictionary of error_response, in which 'ok' is always False. *)
Inductive response :=
| RBytes (b : bytes)
| RText (s : string)
| RChunked (seg_start : Z) (chunks : list bytes)
| RError (pl : string).

(** dash_proxy.py 122-126 *)
Definition nl : string := String (ascii_of_nat 10) EmptyString.
(** dash_proxy.py 122-126 [error_response] *)
Definition error_response (s : site) (c : config) (now : Q) (r : reason) : response :=
  RError (st_text s r c now ++ nl).
(** dash_proxy.py 285-289 and 200-203: the directory of one of two
    representations; an empty common path gives a double slash in line 201,
    which is the same directory. *)
Definition sibling (rel id : string) : string := join "/" (py_init (split_all "/" rel) ++ [id])%list.
(** dash_proxy.py 266-305 for an accepted request, [chunk] as in line 159 of
    mod_dashlivesim.py. *)
Definition media_content (s : site) (c : config) (sv : served) (chunk : bool) (now : Z) : result response :=
  let files := st_files s (c_content_name c) in
  match c_reps c with
  | [] => Err "IndexError"
  | [_] =>
      if chunk then
        let* (t, l) := chunked_segment files (st_inits s (c_content_name c) (c_rel_path c) "init.mp4") c sv now in
        Ok (RChunked t l)
      else let* b := plain_segment files c sv now in Ok (RBytes b)
  | r1 :: r2 :: _ =>
      let* seg1 := filter_media_segment files c r1 (sibling (c_rel_path c) (rep_id r1)) sv None now in
      let* seg2 := filter_media_segment files c r2 (sibling (c_rel_path c) (rep_id r2)) sv None now in
      let* b := mux_media seg1 seg2 in Ok (RBytes b)
  end.
(** get_media, dash_proxy.py 141-187, with the content (thumbnail file: 377-383). *)
Definition media_response (s : site) (c : config) (chunk : bool) (now : Q) : result response :=
  let* r := get_media c now in
  match r with
  | Refuse why => Ok (error_response s c now why)
  | Serve sv =>
      if String.eqb (c_ext c) ".m4s" then media_content s c sv chunk (py_int_of_Q now)
      else let* b := st_files s (c_content_name c) (c_rel_path c) (sv_vod sv) (c_ext c) in Ok (RBytes b)
  end.
(** get_init and process_init_segment, dash_proxy.py 129-138 and 190-207.  A
    refusal is for the time (RInitTooEarly) or for the number of
    representations (RBadReps). *)
Definition init_response (s : site) (c : config) (now : Q) : result response :=
  let* ok := get_init c now in
  let inits := st_inits s (c_content_name c) in
  match ok, c_reps c with
  | true, [_] =>
      let* file := inits (c_rel_path c) (c_filename c) in
      let* b := init_live file in Ok (RBytes b)
  | true, [r1; r2] =>
      let* f1 := inits (sibling (c_rel_path c) (rep_id r1)) (c_filename c) in
      let* f2 := inits (sibling (c_rel_path c) (rep_id r2)) (c_filename c) in
      let* b := mux_inits f1 f2 in Ok (RBytes b)
  | _, _ => Ok (error_response s c now (if py_int_of_Q now <? c_ast c - c_init_off c then RInitTooEarly else RBadReps))
  end.

(** A request: host, the path of the URL and its query (the work of urlparse;
    parse_qs only feeds url_args, which nothing reads), scheme, Range header,
    and the text of the URL object in error messages. *)
Record http_request := mk_request {
  hr_host : string;
  hr_path : string;
  hr_query : string;
  hr_https : bool;
  hr_range : option string;
  hr_url_text : string
}.
(** mod_dashlivesim.py 97: the path split at the slashes *)
Definition path_parts (r : http_request) : list string := split_all "/" (hr_path r).
(** mod_dashlivesim.py 98: the extension of the last part *)
Definition url_ext (r : http_request) : string := snd (splitext (last (path_parts r) "")).
(** DashProvider.__init__, dash_proxy.py 104-119 *)
Definition provider_config (s : site) (r : http_request) (now : Q) : result config :=
  match path_parts r with
  | _ :: first :: parts =>
      let base := (if hr_https r then "https" else "http") ++ "://" ++ hr_host r ++ "/" ++ first ++ "/" in
      process_url (st_vod s) base parts (py_int_of_Q now)
  | _ => Err "IndexError"
  end.
(** mod_dashlivesim.py 153-169; no branch leaves [response] unbound. *)
Definition respond (s : site) (r : http_request) (now : Q) : result response :=
  let* c := provider_config s r now in
  if String.eqb (c_ext c) ".m4s" then
    media_response s c (match c_chunkdur c with Some q => Qltb 0 q | None => false end) now
  else if String.eqb (c_ext c) ".mpd" || String.eqb (c_ext c) ".period" then
    let* t := st_mpd s c (skipn 2 (path_parts r)) now in Ok (RText t)
  else if String.eqb (c_ext c) ".mp4" then init_response s c now
  else if String.eqb (c_ext c) ".jpg" then media_response s c false now
  else Err "UnboundLocalError".

(** ** Byte ranges, mod_dashlivesim.py 242-271 *)
(** [payload[a:b]] for any integers *)
Definition py_slice (a b : Z) (d : bytes) : bytes :=
  let fix_index i := if i <? 0 then Z.max 0 (blen d + i) else i in
  bslice (fix_index a) (fix_index b) d.
(** The second component: None, or the text of Content-Range.  Comparing the two
    empty texts of line 265 gives no new information (bad_range is set). *)
Definition handle_byte_range (payload : bytes) (range_line : string) : result (bytes * option string) :=
  match split_all "," (last (split_all "=" range_line) "") with
  | [interval] =>
      let length := blen payload in
      let range a b :=
        if b <? a then Ok (payload, Some "")
        else Ok (py_slice a (b + 1) payload,
                 Some ("bytes " ++ print_Z a ++ "-" ++ print_Z b ++ "/" ++ print_Z length)) in
      match split_all "-" interval with
      | [range_start; range_end] =>
          if String.eqb range_start "" then
            if String.eqb range_end "" then Ok (payload, Some "")
            else let* n := py_int range_end in range (length - n) (length - 1)
          else
            let* a := py_int range_start in
            let* b := if String.eqb range_end "" then Ok (length - 1)
                      else let* b := py_int range_end in Ok (Z.min b (length - 1)) in
            range a b
      | _ => Err "ValueError"
      end
  | _ => Ok (payload, None)
  end.

(** ** Replies *)
(** A Python dictionary in the order of insertion; the value None of a header
    can come from handle_byte_range. *)
Definition headers := list (string * option string).
(** [h[key] = value] (mod_dashlivesim.py 63-77) *)
Fixpoint put (key : string) (value : option string) (h : headers) : headers :=
  match h with
  | [] => [(key, value)]
  | (k, v) :: r => if String.eqb k key then (k, value) :: r else (k, v) :: put key value r
  end.
(** [h.get(key)] (mod_dashlivesim.py 76) *)
Fixpoint header (key : string) (h : headers) : option (option string) :=
  match h with [] => None | (k, v) :: r => if String.eqb k key then Some v else header key r end.
(** What the client gets: status line, headers, the byte strings yielded. *)
Record reply := mk_reply { rp_status : Z; rp_reason : string; rp_headers : headers; rp_body : list bytes }.
(** mod_dashlivesim.py 49-55 *)
Definition status_string (code : Z) : result string :=
  if code =? 200 then Ok "OK"
  else if code =? 206 then Ok "Partial Content"
  else if code =? 302 then Ok "Found"
  else if code =? 404 then Ok "Not Found"
  else if code =? 410 then Ok "Gone"
  else Err "KeyError".
(** SERVER_AGENT of dashlivesim/__init__.py, sent by mod_dashlivesim.py 67 *)
Definition server_agent : string := "DASH-IF live DASH simulator 2.0.2+dev".
(** mod_dashlivesim.py 58-79 [start_reply]: the dictionary [h] is changed in place, so the
    changed one is also what the caller's dictionary holds afterwards. *)
Definition start_headers (length : Z) (h : headers) : headers :=
  let set k v := put k (Some v) in
  let h := set "Accept-Ranges" "bytes" h in
  let h := set "Pragma" "no-cache" h in
  let h := set "Cache-Control" "no-cache" h in
  let h := set "Expires" "-1" h in
  let h := set "DASH-Live-Simulator" server_agent h in
  let h := set "Access-Control-Allow-Headers" "origin,range,accept-encoding,referer" h in
  let h := set "Access-Control-Allow-Methods" "GET,HEAD,OPTIONS" h in
  let h := set "Access-Control-Allow-Origin" "*" h in
  let h := set "Access-Control-Expose-Headers" "Server,range,Content-Length,Content-Range,Date" h in
  let h := if 0 <=? length then set "Content-Length" (print_Z length) h else h in
  match header "Content-Type" h with Some _ => h | None => set "Content-Type" "text/plain" h end.
(** mod_dashlivesim.py 58-79 [start_reply]: status line, headers and the body sent after it *)
Definition start_reply (code length : Z) (h : headers) (body : list bytes) : result (reply * headers) :=
  let* text := status_string code in
  let h := start_headers length h in
  Ok (mk_reply code text h body, h).

(** mod_dashlivesim.py 230-239 *)
Definition get_mime_type (ext : string) : string :=
  if String.eqb ext ".mpd" then "application/dash+xml"
  else if String.eqb ext ".m4s" then "video/iso.segment"
  else if String.eqb ext ".mp4" then "video/mp4"
  else "text/plain".

(** mod_dashlivesim.py 108-114: the last part sts_<int> wins, other parts are skipped. *)
Fixpoint session_start (parts : list string) (start : option Z) : option Z :=
  match parts with
  | [] => start
  | p :: r =>
      session_start r (if starts_with "sts_" p then match py_int (drop 4 p) with Ok z => Some z | Err _ => start end else start)
  end.
(** mod_dashlivesim.py 117-124; [sid] is the random session id. *)
Definition redirect_url (r : http_request) (now : Q) (sid : string) : string :=
  (if hr_https r then "https://" else "http://") ++ hr_host r
  ++ join "/" (List.app (firstn 2 (path_parts r))
                (("sts_" ++ print_Z (py_int_of_Q now)) :: ("sid_" ++ sid) :: skipn 2 (path_parts r)))
  ++ (if String.eqb (hr_query r) "" then "" else "?" ++ hr_query r).

(** mod_dashlivesim.py 152-227, after the session check. *)
Definition content_reply (s : site) (r : http_request) (now : Q) : result reply :=
  let failure text := let* (rp, _) := start_reply 404 (blen (encode_utf8 text)) [("Content-Type", Some "text/plain")] [encode_utf8 text] in Ok rp in
  let mime := [("Content-Type", Some (get_mime_type (url_ext r)))] in
  let whole payload :=
    match payload with
    | [] => failure "Not found (now)"
    | _ =>
        match hr_range r with
        | Some (String a l) =>
            let* (out, range) := handle_byte_range payload (String a l) in
            match range with
            | Some "" => let* (rp, _) := start_reply 200 (blen out) mime [out] in Ok rp
            | _ => let* (rp, _) := start_reply 206 (blen out) (put "Content-Range" range mime) [out] in Ok rp
            end
        | _ => let* (rp, _) := start_reply 200 (blen payload) mime [payload] in Ok rp
        end
    end in
  match respond s r now with
  | Err e => failure ("DASH Proxy Error: " ++ e ++ nl ++ " URL=" ++ hr_url_text r)
  | Ok (RError pl) => failure (if String.eqb pl "" then "Not found (now)" else pl)
  | Ok (RBytes b) => whole b
  | Ok (RText t) => whole (encode_utf8 t)
  | Ok (RChunked _ chunks) => let* (rp, _) := start_reply 200 (-1) mime chunks in Ok rp
  end.

(** mod_dashlivesim.py 89-227 [application].  [dflt] is the default dictionary of
    start_reply, shared by all requests of the process; the result has its new
    value.  An error leaves the generator before a reply is started. *)
Definition application (limit : Z) (s : site) (r : http_request) (now : Q) (sid : string) (dflt : headers)
    : result reply * headers :=
  let shared code text :=
    let body := encode_utf8 text in
    match start_reply code (blen body) dflt [body] with
    | Ok (rp, h) => (Ok rp, h)
    | Err e => (Err e, dflt)
    end in
  let start := session_start (path_parts r) None in
  if limit =? 0 then (content_reply s r now, dflt)
  else
    match start with
    | None =>
        if String.eqb (url_ext r) ".mpd" then
          (let* (rp, _) := start_reply 302 0 [("Location", Some (redirect_url r now sid))] [[]] in Ok rp, dflt)
        else shared 404 "No start_time in non-manifest request"
    | Some t =>
        if Qltb (inject_Z (t + limit)) now then shared 410 ("Maximum session length " ++ print_Z limit ++ "s passed")
        else if Qltb (now + 5)%Q (inject_Z t) then shared 404 "start_time is in future"
        else (content_reply s r now, dflt)
    end.
(** A process answering requests one after the other. *)
Fixpoint run (limit : Z) (s : site) (history : list (http_request * Q * string)) (dflt : headers) : headers :=
  match history with
  | [] => dflt
  | (r, now, sid) :: rest => run limit s rest (snd (application limit s r now sid dflt))
  end.
