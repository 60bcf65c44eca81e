(** Vocabulary of property C75: analyzed content as it is served. *)
From Verif Require Import Base BytesModel BoxSpec ConfigModel MediaSpec HttpModel HttpSpec VodModel VodSpec Mpd2Spec.
Local Open Scope string_scope.
Open Scope Z_scope.

(** A segment of one fragment with one run, [default] being the default sample
    duration of its track: it begins at decode time [t] and lasts [d] ticks. *)
Definition spans (default : Z) (l : list box) (t d : Z) : Prop :=
  exists pre f m h r dd, l = MediaSpec.seg pre f m [] /\
    Forall (fun b => ~ In (btype b) [bstr "moof"; bstr "mdat"]) pre /\
    one_run f h r /\ decode_time (fr_tfdt f) t /\ tfhd_default default h dd /\ trun_total dd r d.
(** The site has the files of representation [r] of content [name], and no others
    in the directory of [r]. *)
Definition stores (s : site) (name : string) (r : vrep) : Prop :=
  forall nr file, 0 <= nr -> st_files s name (vr_id r) nr ".m4s" = Ok file <-> In (nr, file) (vr_files r).
(** Every file of [r] is such a segment. *)
Definition one_fragment (default : Z) (r : vrep) : Prop :=
  forall nr file, In (nr, file) (vr_files r) ->
    exists l t d, file = encs l /\ segment_ok l /\ spans default l t d.
(** No other content type has this representation id. *)
Definition own_id (sets : list vset) (s : vset) (r : vrep) : Prop :=
  forall s', In s' sets -> vs_type s' <> vs_type s -> ~ In (vr_id r) (map vr_id (vs_reps s')).
(** The reply is this segment. *)
Definition replied (rp : reply) (default t d : Z) : Prop :=
  rp_status rp = 200 /\ exists out, rp_body rp = [encs out] /\ boxes_ok containers any_payload out /\ spans default out t d.

(** The content was analyzed, and the site has what the analysis wrote. *)
Definition published (s : site) (name base : string) (sets : list vset) (cfg : vod_data) (ms : list mdata) : Prop :=
  analyze base sets = Ok (cfg, ms) /\ named sets /\ strip base = base /\
  Forall (fun st => Forall (fun r => plain_id (vr_id r)) (vs_reps st)) sets /\
  exists v, read_config (write_config cfg) = Ok v /\ st_vod s name = Ok v.
(** A representation of it, with time scale [ts], default sample duration
    [default] and segments [l]; the site has its files. *)
Definition stream (s : site) (name : string) (sets : list vset) (cfg : vod_data) (ms : list mdata)
    (r : vrep) (ts default : Z) (l : list VodSpec.seg) : Prop :=
  exists k set m, nth_error sets k = Some set /\ nth_error ms k = Some m /\ In (vs_type set) ["video"; "audio"] /\
    In r (vs_reps set) /\ own_id sets set r /\ ts = md_timescale m /\
    segments_of r ts (vd_first cfg) l /\ track (vr_init r) ts default /\ one_fragment default r /\ stores s name r.
(** A segment URL without options, and a successful fetch of it: at some moment,
    after some requests. *)
Definition segment_path (first name id : string) (n : Z) : string :=
  "/" ++ first ++ "/" ++ name ++ "/" ++ id ++ "/" ++ print_Z n ++ ".m4s".
Definition fetched (limit : Z) (s : site) (name id : string) (n : Z) (rp : reply) : Prop :=
  exists rq now sid history first, admitted limit rq now /\ hr_range rq = None /\ (0 <= now)%Q /\
    hr_path rq = segment_path first name id n /\ no_slash first /\
    fst (application limit s rq now sid (run limit s history [])) = Ok rp /\ rp_status rp = 200.
(** Names that the URL can hold as one part, not as an option or as two
    representations. *)
Definition url_names (name id : string) : Prop :=
  no_slash name /\ no_slash id /\ split_dunder id = [id] /\
  forall k, In k url_cfg_keys -> name <> k /\ forall v, name <> k ++ "_" ++ v.
