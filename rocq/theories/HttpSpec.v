(** Vocabulary of the HTTP properties C45-C47 and C60. *)
From Verif Require Import Base BytesModel ConfigModel ProxyModel HttpModel.
Local Open Scope string_scope.
Open Scope Z_scope.

(** ** Byte ranges (C45) *)
(** One range: from a position to a position (inclusive) or to the end, or the
    last n bytes. *)
Inductive range := Between (a b : Z) | OpenFrom (a : Z) | LastBytes (n : Z).
(** A number in decimal digits, leading zeros allowed. *)
Definition digit (c : ascii) : Prop := (48 <= nat_of_ascii c <= 57)%nat.
Inductive decimal : string -> Z -> Prop :=
| dec_one : forall c, digit c -> decimal (String c "") (Z.of_nat (nat_of_ascii c) - 48)
| dec_more : forall s z c, decimal s z -> digit c -> decimal (s ++ String c "") (10 * z + (Z.of_nat (nat_of_ascii c) - 48)).
(** The text after "bytes=". *)
Inductive spells : range -> string -> Prop :=
| sp_between : forall a b x y, decimal x a -> decimal y b -> spells (Between a b) (x ++ "-" ++ y)
| sp_open : forall a x, decimal x a -> spells (OpenFrom a) (x ++ "-")
| sp_last : forall n y, decimal y n -> spells (LastBytes n) ("-" ++ y).
(** First and last position asked for in a payload of [len] bytes, when there
    are any. *)
Definition positions (r : range) (len : Z) : option (Z * Z) :=
  match r with
  | Between a b => if (a <=? b) && (a <? len) then Some (a, Z.min b (len - 1)) else None
  | OpenFrom a => if a <? len then Some (a, len - 1) else None
  | LastBytes n => if (0 <? n) && (0 <? len) then Some (Z.max 0 (len - n), len - 1) else None
  end.
(** The bytes at positions a..b. *)
Definition part_of (payload : bytes) (a b : Z) (out : bytes) : Prop :=
  exists before after, payload = (before ++ out ++ after)%list /\ blen before = a /\ blen out = b - a + 1.
Definition header_is (rp : reply) (key value : string) : Prop := header key (rp_headers rp) = Some (Some value).
Definition no_header (rp : reply) (key : string) : Prop := header key (rp_headers rp) = None.
(** The reply that C45 asks for. *)
Definition range_reply (payload : bytes) (r : range) (rp : reply) : Prop :=
  match positions r (blen payload) with
  | Some (a, b) =>
      exists out, rp_status rp = 206 /\ rp_body rp = [out] /\ part_of payload a b out /\
        header_is rp "Content-Range" ("bytes " ++ print_Z a ++ "-" ++ print_Z b ++ "/" ++ print_Z (blen payload)) /\
        header_is rp "Content-Length" (print_Z (blen out))
  | None =>
      rp_status rp = 200 /\ rp_body rp = [payload] /\ no_header rp "Content-Range" /\
      header_is rp "Content-Length" (print_Z (blen payload))
  end.

(** What the provider delivers in one piece. *)
Definition delivers (s : site) (r : http_request) (now : Q) (payload : bytes) : Prop :=
  payload <> [] /\
  (respond s r now = Ok (RBytes payload) \/ exists t, respond s r now = Ok (RText t) /\ payload = encode_utf8 t).

(** ** Sessions (C47) *)
(** A path part that carries a start time. *)
Definition carries (p : string) (t : Z) : Prop := exists x, p = "sts_" ++ x /\ py_int x = Ok t.
(** The start time of a path: the last one in it. *)
Definition started (parts : list string) (t : Z) : Prop :=
  exists before p after, parts = (before ++ p :: after)%list /\ carries p t /\
    Forall (fun q => forall t', ~ carries q t') after.
Definition unstarted (parts : list string) : Prop := Forall (fun q => forall t, ~ carries q t) parts.

(** ** Errors (C60) *)
(** The texts that the server has for errors. *)
Inductive error_text (limit : Z) (s : site) (r : http_request) (now : Q) : Z -> string -> Prop :=
| et_no_start : error_text limit s r now 404 "No start_time in non-manifest request"
| et_future : error_text limit s r now 404 "start_time is in future"
| et_over : error_text limit s r now 410 ("Maximum session length " ++ print_Z limit ++ "s passed")
| et_refused : forall why c, provider_config s r now = Ok c -> error_text limit s r now 404 (st_text s why c now ++ nl)
| et_raised : forall e, respond s r now = Err e ->
    error_text limit s r now 404 ("DASH Proxy Error: " ++ e ++ nl ++ " URL=" ++ hr_url_text r)
| et_empty : (respond s r now = Ok (RBytes []) \/ respond s r now = Ok (RText "")) ->
    error_text limit s r now 404 "Not found (now)".

(** Served by the provider: no limit, or within the session. *)
Definition admitted (limit : Z) (r : http_request) (now : Q) : Prop :=
  limit = 0 \/ exists t, started (path_parts r) t /\ (now <= inject_Z (t + limit))%Q /\ (inject_Z t <= now + 5)%Q.
(** The path with start time and session id after its first component. *)
Definition in_path (c : ascii) (s : string) : Prop := In c (list_ascii_of_string s).
Inductive session_path (t : Z) (sid : string) : string -> string -> Prop :=
| se_deep : forall first rest, ~ in_path "/" first ->
    session_path t sid ("/" ++ first ++ "/" ++ rest) ("/" ++ first ++ "/sts_" ++ print_Z t ++ "/sid_" ++ sid ++ "/" ++ rest)
| se_flat : forall first, ~ in_path "/" first ->
    session_path t sid ("/" ++ first) ("/" ++ first ++ "/sts_" ++ print_Z t ++ "/sid_" ++ sid).
(** Reply contents. *)
Definition success (rp : reply) : Prop := rp_status rp = 200 \/ rp_status rp = 206.
(** Content of the provider in a reply body: all of it, one part of it, or the
    chunks one after the other. *)
Definition content_of (s : site) (r : http_request) (now : Q) (body : list bytes) : Prop :=
  (exists payload out, delivers s r now payload /\ body = [out] /\
     exists before after, payload = (before ++ out ++ after)%list) \/
  exists t, respond s r now = Ok (RChunked t body).
