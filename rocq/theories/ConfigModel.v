(** Model of dashlivesim/dashlib/configprocessor.py and moduloperiod.py.
    The record [config] and its setters were generated from the list of
    attributes assigned in Config.__init__ (configprocessor.py:64-115);
    left out: vod_cfg_dir, modulo_period, cont, vod_default_tsbd_secs (never
    read by the modelled code). *)
From Verif Require Import Base.

(** One entry of media_data, configprocessor.py:291-299. *)
Record media := mkMedia {
  m_timescale : Z;
  m_reps : list string;
  m_total : option Z;       (* total_duration, version 1.1 only *)
  m_dat : option string     (* dat_file, version 1.1 only *)
}.

(** One entry of cfg.reps, configprocessor.py:139. *)
Record rep := mkRep {
  rep_id : string;
  rep_type : string;
  rep_timescale : Z
}.

(** VodConfig attributes after read_config, configprocessor.py:253-301. *)
Record vodcfg := mkVod {
  v_first : Z;          (* first_segment_in_loop *)
  v_n : Z;              (* nr_segments_in_loop *)
  v_dur : Z;            (* segment_duration_s *)
  v_tsbd : Z;           (* default_tsbd_secs *)
  v_media : list (string * media)
}.

(** Config, configprocessor.py:60-115. *)
Record config := mkCfg {
  c_ast : Z   (* availability_start_time_in_s *);
  c_ato : option Q   (* availability_time_offset_in_s; None is the code's -1 (infinite) *);
  c_atc : bool   (* availability_time_complete *);
  c_spd : option Z   (* suggested_presentation_delay_in_s *);
  c_aet : option Q   (* availability_end_time *);
  c_mpdur : option Q   (* media_presentation_duration *);
  c_tsbd : option Z   (* timeshift_buffer_depth_in_s *);
  c_mup : option Q   (* minimum_update_period_in_s *);
  c_chunkdur : option Q   (* chunk_duration_in_s *);
  c_last_nrs : list Q   (* last_segment_numbers *);
  c_init_off : Z   (* init_seg_avail_offset *);
  c_tfdt32 : bool   (* tfdt32_flag *);
  c_pph : Z   (* periods_per_hour *);
  c_xlink : Z   (* xlink_periods_per_hour *);
  c_etp : Z   (* etp_periods_per_hour *);
  c_etpdur : Z   (* etp_duration *);
  c_insert_ad : Z   (* insert_ad *);
  c_callback : Z   (* mpd_callback *);
  c_cont_mp : bool   (* cont_multiperiod *);
  c_segtl : bool   (* seg_timeline *);
  c_segtlnr : bool   (* seg_timeline_nr *);
  c_multi_url : list string   (* multi_url *);
  c_peroff : Z   (* period_offset *);
  c_scte35 : Z   (* scte35_per_minute *);
  c_utc : list string   (* utc_timing_methods *);
  c_start_nr : Z   (* start_nr *);
  c_content_name : string   (* content_name *);
  c_base_url : string   (* base_url *);
  c_rel_path : string   (* rel_path *);
  c_filename : string   (* filename *);
  c_ext : string   (* ext *);
  c_reps : list rep   (* reps *);
  c_media_data : list (string * media)   (* media_data *);
  c_seg_dur : Z   (* seg_duration (0 stands for the initial None) *);
  c_vod_first : Z   (* vod_first_segment_in_loop (0 for None) *);
  c_vod_n : Z   (* vod_nr_segments_in_loop *);
  c_wrap_secs : Z   (* vod_wrap_seconds (0 for None) *);
  c_publish_time : Q   (* publish_time (0 for None) *);
  c_add_loc : bool   (* add_location *);
  c_start_time : option Z   (* start_time *);
  c_stop_time : option Z   (* stop_time *);
  c_timeoffset : option Z   (* timeoffset *);
  c_insert_sidx : bool   (* insert_sidx *);
  c_stl_loss : bool   (* segtimelineloss *);
  c_emsg_last : bool   (* emsg_last_seg *)
}.

(** Attribute assignment [cfg.f = v], one setter per attribute. *)
Definition set_ast (v : Z) (c : config) : config :=
  mkCfg v (c_ato c) (c_atc c) (c_spd c) (c_aet c) (c_mpdur c) (c_tsbd c) (c_mup c) (c_chunkdur c) (c_last_nrs c) (c_init_off c) (c_tfdt32 c) (c_pph c) (c_xlink c) (c_etp c) (c_etpdur c) (c_insert_ad c) (c_callback c) (c_cont_mp c) (c_segtl c) (c_segtlnr c) (c_multi_url c) (c_peroff c) (c_scte35 c) (c_utc c) (c_start_nr c) (c_content_name c) (c_base_url c) (c_rel_path c) (c_filename c) (c_ext c) (c_reps c) (c_media_data c) (c_seg_dur c) (c_vod_first c) (c_vod_n c) (c_wrap_secs c) (c_publish_time c) (c_add_loc c) (c_start_time c) (c_stop_time c) (c_timeoffset c) (c_insert_sidx c) (c_stl_loss c) (c_emsg_last c).
(** [cfg.availability_time_offset_in_s = v] (attribute of configprocessor.py 64-115) *)
Definition set_ato (v : option Q) (c : config) : config :=
  mkCfg (c_ast c) v (c_atc c) (c_spd c) (c_aet c) (c_mpdur c) (c_tsbd c) (c_mup c) (c_chunkdur c) (c_last_nrs c) (c_init_off c) (c_tfdt32 c) (c_pph c) (c_xlink c) (c_etp c) (c_etpdur c) (c_insert_ad c) (c_callback c) (c_cont_mp c) (c_segtl c) (c_segtlnr c) (c_multi_url c) (c_peroff c) (c_scte35 c) (c_utc c) (c_start_nr c) (c_content_name c) (c_base_url c) (c_rel_path c) (c_filename c) (c_ext c) (c_reps c) (c_media_data c) (c_seg_dur c) (c_vod_first c) (c_vod_n c) (c_wrap_secs c) (c_publish_time c) (c_add_loc c) (c_start_time c) (c_stop_time c) (c_timeoffset c) (c_insert_sidx c) (c_stl_loss c) (c_emsg_last c).
(** [cfg.availability_time_complete = v] (attribute of configprocessor.py 64-115) *)
Definition set_atc (v : bool) (c : config) : config :=
  mkCfg (c_ast c) (c_ato c) v (c_spd c) (c_aet c) (c_mpdur c) (c_tsbd c) (c_mup c) (c_chunkdur c) (c_last_nrs c) (c_init_off c) (c_tfdt32 c) (c_pph c) (c_xlink c) (c_etp c) (c_etpdur c) (c_insert_ad c) (c_callback c) (c_cont_mp c) (c_segtl c) (c_segtlnr c) (c_multi_url c) (c_peroff c) (c_scte35 c) (c_utc c) (c_start_nr c) (c_content_name c) (c_base_url c) (c_rel_path c) (c_filename c) (c_ext c) (c_reps c) (c_media_data c) (c_seg_dur c) (c_vod_first c) (c_vod_n c) (c_wrap_secs c) (c_publish_time c) (c_add_loc c) (c_start_time c) (c_stop_time c) (c_timeoffset c) (c_insert_sidx c) (c_stl_loss c) (c_emsg_last c).
(** [cfg.suggested_presentation_delay_in_s = v] (attribute of configprocessor.py 64-115) *)
Definition set_spd (v : option Z) (c : config) : config :=
  mkCfg (c_ast c) (c_ato c) (c_atc c) v (c_aet c) (c_mpdur c) (c_tsbd c) (c_mup c) (c_chunkdur c) (c_last_nrs c) (c_init_off c) (c_tfdt32 c) (c_pph c) (c_xlink c) (c_etp c) (c_etpdur c) (c_insert_ad c) (c_callback c) (c_cont_mp c) (c_segtl c) (c_segtlnr c) (c_multi_url c) (c_peroff c) (c_scte35 c) (c_utc c) (c_start_nr c) (c_content_name c) (c_base_url c) (c_rel_path c) (c_filename c) (c_ext c) (c_reps c) (c_media_data c) (c_seg_dur c) (c_vod_first c) (c_vod_n c) (c_wrap_secs c) (c_publish_time c) (c_add_loc c) (c_start_time c) (c_stop_time c) (c_timeoffset c) (c_insert_sidx c) (c_stl_loss c) (c_emsg_last c).
(** [cfg.availability_end_time = v] (attribute of configprocessor.py 64-115) *)
Definition set_aet (v : option Q) (c : config) : config :=
  mkCfg (c_ast c) (c_ato c) (c_atc c) (c_spd c) v (c_mpdur c) (c_tsbd c) (c_mup c) (c_chunkdur c) (c_last_nrs c) (c_init_off c) (c_tfdt32 c) (c_pph c) (c_xlink c) (c_etp c) (c_etpdur c) (c_insert_ad c) (c_callback c) (c_cont_mp c) (c_segtl c) (c_segtlnr c) (c_multi_url c) (c_peroff c) (c_scte35 c) (c_utc c) (c_start_nr c) (c_content_name c) (c_base_url c) (c_rel_path c) (c_filename c) (c_ext c) (c_reps c) (c_media_data c) (c_seg_dur c) (c_vod_first c) (c_vod_n c) (c_wrap_secs c) (c_publish_time c) (c_add_loc c) (c_start_time c) (c_stop_time c) (c_timeoffset c) (c_insert_sidx c) (c_stl_loss c) (c_emsg_last c).
(** [cfg.media_presentation_duration = v] (attribute of configprocessor.py 64-115) *)
Definition set_mpdur (v : option Q) (c : config) : config :=
  mkCfg (c_ast c) (c_ato c) (c_atc c) (c_spd c) (c_aet c) v (c_tsbd c) (c_mup c) (c_chunkdur c) (c_last_nrs c) (c_init_off c) (c_tfdt32 c) (c_pph c) (c_xlink c) (c_etp c) (c_etpdur c) (c_insert_ad c) (c_callback c) (c_cont_mp c) (c_segtl c) (c_segtlnr c) (c_multi_url c) (c_peroff c) (c_scte35 c) (c_utc c) (c_start_nr c) (c_content_name c) (c_base_url c) (c_rel_path c) (c_filename c) (c_ext c) (c_reps c) (c_media_data c) (c_seg_dur c) (c_vod_first c) (c_vod_n c) (c_wrap_secs c) (c_publish_time c) (c_add_loc c) (c_start_time c) (c_stop_time c) (c_timeoffset c) (c_insert_sidx c) (c_stl_loss c) (c_emsg_last c).
(** [cfg.timeshift_buffer_depth_in_s = v] (attribute of configprocessor.py 64-115) *)
Definition set_tsbd (v : option Z) (c : config) : config :=
  mkCfg (c_ast c) (c_ato c) (c_atc c) (c_spd c) (c_aet c) (c_mpdur c) v (c_mup c) (c_chunkdur c) (c_last_nrs c) (c_init_off c) (c_tfdt32 c) (c_pph c) (c_xlink c) (c_etp c) (c_etpdur c) (c_insert_ad c) (c_callback c) (c_cont_mp c) (c_segtl c) (c_segtlnr c) (c_multi_url c) (c_peroff c) (c_scte35 c) (c_utc c) (c_start_nr c) (c_content_name c) (c_base_url c) (c_rel_path c) (c_filename c) (c_ext c) (c_reps c) (c_media_data c) (c_seg_dur c) (c_vod_first c) (c_vod_n c) (c_wrap_secs c) (c_publish_time c) (c_add_loc c) (c_start_time c) (c_stop_time c) (c_timeoffset c) (c_insert_sidx c) (c_stl_loss c) (c_emsg_last c).
(** [cfg.minimum_update_period_in_s = v] (attribute of configprocessor.py 64-115) *)
Definition set_mup (v : option Q) (c : config) : config :=
  mkCfg (c_ast c) (c_ato c) (c_atc c) (c_spd c) (c_aet c) (c_mpdur c) (c_tsbd c) v (c_chunkdur c) (c_last_nrs c) (c_init_off c) (c_tfdt32 c) (c_pph c) (c_xlink c) (c_etp c) (c_etpdur c) (c_insert_ad c) (c_callback c) (c_cont_mp c) (c_segtl c) (c_segtlnr c) (c_multi_url c) (c_peroff c) (c_scte35 c) (c_utc c) (c_start_nr c) (c_content_name c) (c_base_url c) (c_rel_path c) (c_filename c) (c_ext c) (c_reps c) (c_media_data c) (c_seg_dur c) (c_vod_first c) (c_vod_n c) (c_wrap_secs c) (c_publish_time c) (c_add_loc c) (c_start_time c) (c_stop_time c) (c_timeoffset c) (c_insert_sidx c) (c_stl_loss c) (c_emsg_last c).
(** [cfg.chunk_duration_in_s = v] (attribute of configprocessor.py 64-115) *)
Definition set_chunkdur (v : option Q) (c : config) : config :=
  mkCfg (c_ast c) (c_ato c) (c_atc c) (c_spd c) (c_aet c) (c_mpdur c) (c_tsbd c) (c_mup c) v (c_last_nrs c) (c_init_off c) (c_tfdt32 c) (c_pph c) (c_xlink c) (c_etp c) (c_etpdur c) (c_insert_ad c) (c_callback c) (c_cont_mp c) (c_segtl c) (c_segtlnr c) (c_multi_url c) (c_peroff c) (c_scte35 c) (c_utc c) (c_start_nr c) (c_content_name c) (c_base_url c) (c_rel_path c) (c_filename c) (c_ext c) (c_reps c) (c_media_data c) (c_seg_dur c) (c_vod_first c) (c_vod_n c) (c_wrap_secs c) (c_publish_time c) (c_add_loc c) (c_start_time c) (c_stop_time c) (c_timeoffset c) (c_insert_sidx c) (c_stl_loss c) (c_emsg_last c).
(** [cfg.last_segment_numbers = v] (attribute of configprocessor.py 64-115) *)
Definition set_last_nrs (v : list Q) (c : config) : config :=
  mkCfg (c_ast c) (c_ato c) (c_atc c) (c_spd c) (c_aet c) (c_mpdur c) (c_tsbd c) (c_mup c) (c_chunkdur c) v (c_init_off c) (c_tfdt32 c) (c_pph c) (c_xlink c) (c_etp c) (c_etpdur c) (c_insert_ad c) (c_callback c) (c_cont_mp c) (c_segtl c) (c_segtlnr c) (c_multi_url c) (c_peroff c) (c_scte35 c) (c_utc c) (c_start_nr c) (c_content_name c) (c_base_url c) (c_rel_path c) (c_filename c) (c_ext c) (c_reps c) (c_media_data c) (c_seg_dur c) (c_vod_first c) (c_vod_n c) (c_wrap_secs c) (c_publish_time c) (c_add_loc c) (c_start_time c) (c_stop_time c) (c_timeoffset c) (c_insert_sidx c) (c_stl_loss c) (c_emsg_last c).
(** [cfg.init_seg_avail_offset = v] (attribute of configprocessor.py 64-115) *)
Definition set_init_off (v : Z) (c : config) : config :=
  mkCfg (c_ast c) (c_ato c) (c_atc c) (c_spd c) (c_aet c) (c_mpdur c) (c_tsbd c) (c_mup c) (c_chunkdur c) (c_last_nrs c) v (c_tfdt32 c) (c_pph c) (c_xlink c) (c_etp c) (c_etpdur c) (c_insert_ad c) (c_callback c) (c_cont_mp c) (c_segtl c) (c_segtlnr c) (c_multi_url c) (c_peroff c) (c_scte35 c) (c_utc c) (c_start_nr c) (c_content_name c) (c_base_url c) (c_rel_path c) (c_filename c) (c_ext c) (c_reps c) (c_media_data c) (c_seg_dur c) (c_vod_first c) (c_vod_n c) (c_wrap_secs c) (c_publish_time c) (c_add_loc c) (c_start_time c) (c_stop_time c) (c_timeoffset c) (c_insert_sidx c) (c_stl_loss c) (c_emsg_last c).
(** [cfg.tfdt32_flag = v] (attribute of configprocessor.py 64-115) *)
Definition set_tfdt32 (v : bool) (c : config) : config :=
  mkCfg (c_ast c) (c_ato c) (c_atc c) (c_spd c) (c_aet c) (c_mpdur c) (c_tsbd c) (c_mup c) (c_chunkdur c) (c_last_nrs c) (c_init_off c) v (c_pph c) (c_xlink c) (c_etp c) (c_etpdur c) (c_insert_ad c) (c_callback c) (c_cont_mp c) (c_segtl c) (c_segtlnr c) (c_multi_url c) (c_peroff c) (c_scte35 c) (c_utc c) (c_start_nr c) (c_content_name c) (c_base_url c) (c_rel_path c) (c_filename c) (c_ext c) (c_reps c) (c_media_data c) (c_seg_dur c) (c_vod_first c) (c_vod_n c) (c_wrap_secs c) (c_publish_time c) (c_add_loc c) (c_start_time c) (c_stop_time c) (c_timeoffset c) (c_insert_sidx c) (c_stl_loss c) (c_emsg_last c).
(** [cfg.periods_per_hour = v] (attribute of configprocessor.py 64-115) *)
Definition set_pph (v : Z) (c : config) : config :=
  mkCfg (c_ast c) (c_ato c) (c_atc c) (c_spd c) (c_aet c) (c_mpdur c) (c_tsbd c) (c_mup c) (c_chunkdur c) (c_last_nrs c) (c_init_off c) (c_tfdt32 c) v (c_xlink c) (c_etp c) (c_etpdur c) (c_insert_ad c) (c_callback c) (c_cont_mp c) (c_segtl c) (c_segtlnr c) (c_multi_url c) (c_peroff c) (c_scte35 c) (c_utc c) (c_start_nr c) (c_content_name c) (c_base_url c) (c_rel_path c) (c_filename c) (c_ext c) (c_reps c) (c_media_data c) (c_seg_dur c) (c_vod_first c) (c_vod_n c) (c_wrap_secs c) (c_publish_time c) (c_add_loc c) (c_start_time c) (c_stop_time c) (c_timeoffset c) (c_insert_sidx c) (c_stl_loss c) (c_emsg_last c).
(** [cfg.xlink_periods_per_hour = v] (attribute of configprocessor.py 64-115) *)
Definition set_xlink (v : Z) (c : config) : config :=
  mkCfg (c_ast c) (c_ato c) (c_atc c) (c_spd c) (c_aet c) (c_mpdur c) (c_tsbd c) (c_mup c) (c_chunkdur c) (c_last_nrs c) (c_init_off c) (c_tfdt32 c) (c_pph c) v (c_etp c) (c_etpdur c) (c_insert_ad c) (c_callback c) (c_cont_mp c) (c_segtl c) (c_segtlnr c) (c_multi_url c) (c_peroff c) (c_scte35 c) (c_utc c) (c_start_nr c) (c_content_name c) (c_base_url c) (c_rel_path c) (c_filename c) (c_ext c) (c_reps c) (c_media_data c) (c_seg_dur c) (c_vod_first c) (c_vod_n c) (c_wrap_secs c) (c_publish_time c) (c_add_loc c) (c_start_time c) (c_stop_time c) (c_timeoffset c) (c_insert_sidx c) (c_stl_loss c) (c_emsg_last c).
(** [cfg.etp_periods_per_hour = v] (attribute of configprocessor.py 64-115) *)
Definition set_etp (v : Z) (c : config) : config :=
  mkCfg (c_ast c) (c_ato c) (c_atc c) (c_spd c) (c_aet c) (c_mpdur c) (c_tsbd c) (c_mup c) (c_chunkdur c) (c_last_nrs c) (c_init_off c) (c_tfdt32 c) (c_pph c) (c_xlink c) v (c_etpdur c) (c_insert_ad c) (c_callback c) (c_cont_mp c) (c_segtl c) (c_segtlnr c) (c_multi_url c) (c_peroff c) (c_scte35 c) (c_utc c) (c_start_nr c) (c_content_name c) (c_base_url c) (c_rel_path c) (c_filename c) (c_ext c) (c_reps c) (c_media_data c) (c_seg_dur c) (c_vod_first c) (c_vod_n c) (c_wrap_secs c) (c_publish_time c) (c_add_loc c) (c_start_time c) (c_stop_time c) (c_timeoffset c) (c_insert_sidx c) (c_stl_loss c) (c_emsg_last c).
(** [cfg.etp_duration = v] (attribute of configprocessor.py 64-115) *)
Definition set_etpdur (v : Z) (c : config) : config :=
  mkCfg (c_ast c) (c_ato c) (c_atc c) (c_spd c) (c_aet c) (c_mpdur c) (c_tsbd c) (c_mup c) (c_chunkdur c) (c_last_nrs c) (c_init_off c) (c_tfdt32 c) (c_pph c) (c_xlink c) (c_etp c) v (c_insert_ad c) (c_callback c) (c_cont_mp c) (c_segtl c) (c_segtlnr c) (c_multi_url c) (c_peroff c) (c_scte35 c) (c_utc c) (c_start_nr c) (c_content_name c) (c_base_url c) (c_rel_path c) (c_filename c) (c_ext c) (c_reps c) (c_media_data c) (c_seg_dur c) (c_vod_first c) (c_vod_n c) (c_wrap_secs c) (c_publish_time c) (c_add_loc c) (c_start_time c) (c_stop_time c) (c_timeoffset c) (c_insert_sidx c) (c_stl_loss c) (c_emsg_last c).
(** [cfg.insert_ad = v] (attribute of configprocessor.py 64-115) *)
Definition set_insert_ad (v : Z) (c : config) : config :=
  mkCfg (c_ast c) (c_ato c) (c_atc c) (c_spd c) (c_aet c) (c_mpdur c) (c_tsbd c) (c_mup c) (c_chunkdur c) (c_last_nrs c) (c_init_off c) (c_tfdt32 c) (c_pph c) (c_xlink c) (c_etp c) (c_etpdur c) v (c_callback c) (c_cont_mp c) (c_segtl c) (c_segtlnr c) (c_multi_url c) (c_peroff c) (c_scte35 c) (c_utc c) (c_start_nr c) (c_content_name c) (c_base_url c) (c_rel_path c) (c_filename c) (c_ext c) (c_reps c) (c_media_data c) (c_seg_dur c) (c_vod_first c) (c_vod_n c) (c_wrap_secs c) (c_publish_time c) (c_add_loc c) (c_start_time c) (c_stop_time c) (c_timeoffset c) (c_insert_sidx c) (c_stl_loss c) (c_emsg_last c).
(** [cfg.mpd_callback = v] (attribute of configprocessor.py 64-115) *)
Definition set_callback (v : Z) (c : config) : config :=
  mkCfg (c_ast c) (c_ato c) (c_atc c) (c_spd c) (c_aet c) (c_mpdur c) (c_tsbd c) (c_mup c) (c_chunkdur c) (c_last_nrs c) (c_init_off c) (c_tfdt32 c) (c_pph c) (c_xlink c) (c_etp c) (c_etpdur c) (c_insert_ad c) v (c_cont_mp c) (c_segtl c) (c_segtlnr c) (c_multi_url c) (c_peroff c) (c_scte35 c) (c_utc c) (c_start_nr c) (c_content_name c) (c_base_url c) (c_rel_path c) (c_filename c) (c_ext c) (c_reps c) (c_media_data c) (c_seg_dur c) (c_vod_first c) (c_vod_n c) (c_wrap_secs c) (c_publish_time c) (c_add_loc c) (c_start_time c) (c_stop_time c) (c_timeoffset c) (c_insert_sidx c) (c_stl_loss c) (c_emsg_last c).
(** [cfg.cont_multiperiod = v] (attribute of configprocessor.py 64-115) *)
Definition set_cont_mp (v : bool) (c : config) : config :=
  mkCfg (c_ast c) (c_ato c) (c_atc c) (c_spd c) (c_aet c) (c_mpdur c) (c_tsbd c) (c_mup c) (c_chunkdur c) (c_last_nrs c) (c_init_off c) (c_tfdt32 c) (c_pph c) (c_xlink c) (c_etp c) (c_etpdur c) (c_insert_ad c) (c_callback c) v (c_segtl c) (c_segtlnr c) (c_multi_url c) (c_peroff c) (c_scte35 c) (c_utc c) (c_start_nr c) (c_content_name c) (c_base_url c) (c_rel_path c) (c_filename c) (c_ext c) (c_reps c) (c_media_data c) (c_seg_dur c) (c_vod_first c) (c_vod_n c) (c_wrap_secs c) (c_publish_time c) (c_add_loc c) (c_start_time c) (c_stop_time c) (c_timeoffset c) (c_insert_sidx c) (c_stl_loss c) (c_emsg_last c).
(** [cfg.seg_timeline = v] (attribute of configprocessor.py 64-115) *)
Definition set_segtl (v : bool) (c : config) : config :=
  mkCfg (c_ast c) (c_ato c) (c_atc c) (c_spd c) (c_aet c) (c_mpdur c) (c_tsbd c) (c_mup c) (c_chunkdur c) (c_last_nrs c) (c_init_off c) (c_tfdt32 c) (c_pph c) (c_xlink c) (c_etp c) (c_etpdur c) (c_insert_ad c) (c_callback c) (c_cont_mp c) v (c_segtlnr c) (c_multi_url c) (c_peroff c) (c_scte35 c) (c_utc c) (c_start_nr c) (c_content_name c) (c_base_url c) (c_rel_path c) (c_filename c) (c_ext c) (c_reps c) (c_media_data c) (c_seg_dur c) (c_vod_first c) (c_vod_n c) (c_wrap_secs c) (c_publish_time c) (c_add_loc c) (c_start_time c) (c_stop_time c) (c_timeoffset c) (c_insert_sidx c) (c_stl_loss c) (c_emsg_last c).
(** [cfg.seg_timeline_nr = v] (attribute of configprocessor.py 64-115) *)
Definition set_segtlnr (v : bool) (c : config) : config :=
  mkCfg (c_ast c) (c_ato c) (c_atc c) (c_spd c) (c_aet c) (c_mpdur c) (c_tsbd c) (c_mup c) (c_chunkdur c) (c_last_nrs c) (c_init_off c) (c_tfdt32 c) (c_pph c) (c_xlink c) (c_etp c) (c_etpdur c) (c_insert_ad c) (c_callback c) (c_cont_mp c) (c_segtl c) v (c_multi_url c) (c_peroff c) (c_scte35 c) (c_utc c) (c_start_nr c) (c_content_name c) (c_base_url c) (c_rel_path c) (c_filename c) (c_ext c) (c_reps c) (c_media_data c) (c_seg_dur c) (c_vod_first c) (c_vod_n c) (c_wrap_secs c) (c_publish_time c) (c_add_loc c) (c_start_time c) (c_stop_time c) (c_timeoffset c) (c_insert_sidx c) (c_stl_loss c) (c_emsg_last c).
(** [cfg.multi_url = v] (attribute of configprocessor.py 64-115) *)
Definition set_multi_url (v : list string) (c : config) : config :=
  mkCfg (c_ast c) (c_ato c) (c_atc c) (c_spd c) (c_aet c) (c_mpdur c) (c_tsbd c) (c_mup c) (c_chunkdur c) (c_last_nrs c) (c_init_off c) (c_tfdt32 c) (c_pph c) (c_xlink c) (c_etp c) (c_etpdur c) (c_insert_ad c) (c_callback c) (c_cont_mp c) (c_segtl c) (c_segtlnr c) v (c_peroff c) (c_scte35 c) (c_utc c) (c_start_nr c) (c_content_name c) (c_base_url c) (c_rel_path c) (c_filename c) (c_ext c) (c_reps c) (c_media_data c) (c_seg_dur c) (c_vod_first c) (c_vod_n c) (c_wrap_secs c) (c_publish_time c) (c_add_loc c) (c_start_time c) (c_stop_time c) (c_timeoffset c) (c_insert_sidx c) (c_stl_loss c) (c_emsg_last c).
(** [cfg.period_offset = v] (attribute of configprocessor.py 64-115) *)
Definition set_peroff (v : Z) (c : config) : config :=
  mkCfg (c_ast c) (c_ato c) (c_atc c) (c_spd c) (c_aet c) (c_mpdur c) (c_tsbd c) (c_mup c) (c_chunkdur c) (c_last_nrs c) (c_init_off c) (c_tfdt32 c) (c_pph c) (c_xlink c) (c_etp c) (c_etpdur c) (c_insert_ad c) (c_callback c) (c_cont_mp c) (c_segtl c) (c_segtlnr c) (c_multi_url c) v (c_scte35 c) (c_utc c) (c_start_nr c) (c_content_name c) (c_base_url c) (c_rel_path c) (c_filename c) (c_ext c) (c_reps c) (c_media_data c) (c_seg_dur c) (c_vod_first c) (c_vod_n c) (c_wrap_secs c) (c_publish_time c) (c_add_loc c) (c_start_time c) (c_stop_time c) (c_timeoffset c) (c_insert_sidx c) (c_stl_loss c) (c_emsg_last c).
(** [cfg.scte35_per_minute = v] (attribute of configprocessor.py 64-115) *)
Definition set_scte35 (v : Z) (c : config) : config :=
  mkCfg (c_ast c) (c_ato c) (c_atc c) (c_spd c) (c_aet c) (c_mpdur c) (c_tsbd c) (c_mup c) (c_chunkdur c) (c_last_nrs c) (c_init_off c) (c_tfdt32 c) (c_pph c) (c_xlink c) (c_etp c) (c_etpdur c) (c_insert_ad c) (c_callback c) (c_cont_mp c) (c_segtl c) (c_segtlnr c) (c_multi_url c) (c_peroff c) v (c_utc c) (c_start_nr c) (c_content_name c) (c_base_url c) (c_rel_path c) (c_filename c) (c_ext c) (c_reps c) (c_media_data c) (c_seg_dur c) (c_vod_first c) (c_vod_n c) (c_wrap_secs c) (c_publish_time c) (c_add_loc c) (c_start_time c) (c_stop_time c) (c_timeoffset c) (c_insert_sidx c) (c_stl_loss c) (c_emsg_last c).
(** [cfg.utc_timing_methods = v] (attribute of configprocessor.py 64-115) *)
Definition set_utc (v : list string) (c : config) : config :=
  mkCfg (c_ast c) (c_ato c) (c_atc c) (c_spd c) (c_aet c) (c_mpdur c) (c_tsbd c) (c_mup c) (c_chunkdur c) (c_last_nrs c) (c_init_off c) (c_tfdt32 c) (c_pph c) (c_xlink c) (c_etp c) (c_etpdur c) (c_insert_ad c) (c_callback c) (c_cont_mp c) (c_segtl c) (c_segtlnr c) (c_multi_url c) (c_peroff c) (c_scte35 c) v (c_start_nr c) (c_content_name c) (c_base_url c) (c_rel_path c) (c_filename c) (c_ext c) (c_reps c) (c_media_data c) (c_seg_dur c) (c_vod_first c) (c_vod_n c) (c_wrap_secs c) (c_publish_time c) (c_add_loc c) (c_start_time c) (c_stop_time c) (c_timeoffset c) (c_insert_sidx c) (c_stl_loss c) (c_emsg_last c).
(** [cfg.start_nr = v] (attribute of configprocessor.py 64-115) *)
Definition set_start_nr (v : Z) (c : config) : config :=
  mkCfg (c_ast c) (c_ato c) (c_atc c) (c_spd c) (c_aet c) (c_mpdur c) (c_tsbd c) (c_mup c) (c_chunkdur c) (c_last_nrs c) (c_init_off c) (c_tfdt32 c) (c_pph c) (c_xlink c) (c_etp c) (c_etpdur c) (c_insert_ad c) (c_callback c) (c_cont_mp c) (c_segtl c) (c_segtlnr c) (c_multi_url c) (c_peroff c) (c_scte35 c) (c_utc c) v (c_content_name c) (c_base_url c) (c_rel_path c) (c_filename c) (c_ext c) (c_reps c) (c_media_data c) (c_seg_dur c) (c_vod_first c) (c_vod_n c) (c_wrap_secs c) (c_publish_time c) (c_add_loc c) (c_start_time c) (c_stop_time c) (c_timeoffset c) (c_insert_sidx c) (c_stl_loss c) (c_emsg_last c).
(** [cfg.content_name = v] (attribute of configprocessor.py 64-115) *)
Definition set_content_name (v : string) (c : config) : config :=
  mkCfg (c_ast c) (c_ato c) (c_atc c) (c_spd c) (c_aet c) (c_mpdur c) (c_tsbd c) (c_mup c) (c_chunkdur c) (c_last_nrs c) (c_init_off c) (c_tfdt32 c) (c_pph c) (c_xlink c) (c_etp c) (c_etpdur c) (c_insert_ad c) (c_callback c) (c_cont_mp c) (c_segtl c) (c_segtlnr c) (c_multi_url c) (c_peroff c) (c_scte35 c) (c_utc c) (c_start_nr c) v (c_base_url c) (c_rel_path c) (c_filename c) (c_ext c) (c_reps c) (c_media_data c) (c_seg_dur c) (c_vod_first c) (c_vod_n c) (c_wrap_secs c) (c_publish_time c) (c_add_loc c) (c_start_time c) (c_stop_time c) (c_timeoffset c) (c_insert_sidx c) (c_stl_loss c) (c_emsg_last c).
(** [cfg.base_url = v] (attribute of configprocessor.py 64-115) *)
Definition set_base_url (v : string) (c : config) : config :=
  mkCfg (c_ast c) (c_ato c) (c_atc c) (c_spd c) (c_aet c) (c_mpdur c) (c_tsbd c) (c_mup c) (c_chunkdur c) (c_last_nrs c) (c_init_off c) (c_tfdt32 c) (c_pph c) (c_xlink c) (c_etp c) (c_etpdur c) (c_insert_ad c) (c_callback c) (c_cont_mp c) (c_segtl c) (c_segtlnr c) (c_multi_url c) (c_peroff c) (c_scte35 c) (c_utc c) (c_start_nr c) (c_content_name c) v (c_rel_path c) (c_filename c) (c_ext c) (c_reps c) (c_media_data c) (c_seg_dur c) (c_vod_first c) (c_vod_n c) (c_wrap_secs c) (c_publish_time c) (c_add_loc c) (c_start_time c) (c_stop_time c) (c_timeoffset c) (c_insert_sidx c) (c_stl_loss c) (c_emsg_last c).
(** [cfg.rel_path = v] (attribute of configprocessor.py 64-115) *)
Definition set_rel_path (v : string) (c : config) : config :=
  mkCfg (c_ast c) (c_ato c) (c_atc c) (c_spd c) (c_aet c) (c_mpdur c) (c_tsbd c) (c_mup c) (c_chunkdur c) (c_last_nrs c) (c_init_off c) (c_tfdt32 c) (c_pph c) (c_xlink c) (c_etp c) (c_etpdur c) (c_insert_ad c) (c_callback c) (c_cont_mp c) (c_segtl c) (c_segtlnr c) (c_multi_url c) (c_peroff c) (c_scte35 c) (c_utc c) (c_start_nr c) (c_content_name c) (c_base_url c) v (c_filename c) (c_ext c) (c_reps c) (c_media_data c) (c_seg_dur c) (c_vod_first c) (c_vod_n c) (c_wrap_secs c) (c_publish_time c) (c_add_loc c) (c_start_time c) (c_stop_time c) (c_timeoffset c) (c_insert_sidx c) (c_stl_loss c) (c_emsg_last c).
(** [cfg.filename = v] (attribute of configprocessor.py 64-115) *)
Definition set_filename (v : string) (c : config) : config :=
  mkCfg (c_ast c) (c_ato c) (c_atc c) (c_spd c) (c_aet c) (c_mpdur c) (c_tsbd c) (c_mup c) (c_chunkdur c) (c_last_nrs c) (c_init_off c) (c_tfdt32 c) (c_pph c) (c_xlink c) (c_etp c) (c_etpdur c) (c_insert_ad c) (c_callback c) (c_cont_mp c) (c_segtl c) (c_segtlnr c) (c_multi_url c) (c_peroff c) (c_scte35 c) (c_utc c) (c_start_nr c) (c_content_name c) (c_base_url c) (c_rel_path c) v (c_ext c) (c_reps c) (c_media_data c) (c_seg_dur c) (c_vod_first c) (c_vod_n c) (c_wrap_secs c) (c_publish_time c) (c_add_loc c) (c_start_time c) (c_stop_time c) (c_timeoffset c) (c_insert_sidx c) (c_stl_loss c) (c_emsg_last c).
(** [cfg.ext = v] (attribute of configprocessor.py 64-115) *)
Definition set_ext (v : string) (c : config) : config :=
  mkCfg (c_ast c) (c_ato c) (c_atc c) (c_spd c) (c_aet c) (c_mpdur c) (c_tsbd c) (c_mup c) (c_chunkdur c) (c_last_nrs c) (c_init_off c) (c_tfdt32 c) (c_pph c) (c_xlink c) (c_etp c) (c_etpdur c) (c_insert_ad c) (c_callback c) (c_cont_mp c) (c_segtl c) (c_segtlnr c) (c_multi_url c) (c_peroff c) (c_scte35 c) (c_utc c) (c_start_nr c) (c_content_name c) (c_base_url c) (c_rel_path c) (c_filename c) v (c_reps c) (c_media_data c) (c_seg_dur c) (c_vod_first c) (c_vod_n c) (c_wrap_secs c) (c_publish_time c) (c_add_loc c) (c_start_time c) (c_stop_time c) (c_timeoffset c) (c_insert_sidx c) (c_stl_loss c) (c_emsg_last c).
(** [cfg.reps = v] (attribute of configprocessor.py 64-115) *)
Definition set_reps (v : list rep) (c : config) : config :=
  mkCfg (c_ast c) (c_ato c) (c_atc c) (c_spd c) (c_aet c) (c_mpdur c) (c_tsbd c) (c_mup c) (c_chunkdur c) (c_last_nrs c) (c_init_off c) (c_tfdt32 c) (c_pph c) (c_xlink c) (c_etp c) (c_etpdur c) (c_insert_ad c) (c_callback c) (c_cont_mp c) (c_segtl c) (c_segtlnr c) (c_multi_url c) (c_peroff c) (c_scte35 c) (c_utc c) (c_start_nr c) (c_content_name c) (c_base_url c) (c_rel_path c) (c_filename c) (c_ext c) v (c_media_data c) (c_seg_dur c) (c_vod_first c) (c_vod_n c) (c_wrap_secs c) (c_publish_time c) (c_add_loc c) (c_start_time c) (c_stop_time c) (c_timeoffset c) (c_insert_sidx c) (c_stl_loss c) (c_emsg_last c).
(** [cfg.media_data = v] (attribute of configprocessor.py 64-115) *)
Definition set_media_data (v : list (string * media)) (c : config) : config :=
  mkCfg (c_ast c) (c_ato c) (c_atc c) (c_spd c) (c_aet c) (c_mpdur c) (c_tsbd c) (c_mup c) (c_chunkdur c) (c_last_nrs c) (c_init_off c) (c_tfdt32 c) (c_pph c) (c_xlink c) (c_etp c) (c_etpdur c) (c_insert_ad c) (c_callback c) (c_cont_mp c) (c_segtl c) (c_segtlnr c) (c_multi_url c) (c_peroff c) (c_scte35 c) (c_utc c) (c_start_nr c) (c_content_name c) (c_base_url c) (c_rel_path c) (c_filename c) (c_ext c) (c_reps c) v (c_seg_dur c) (c_vod_first c) (c_vod_n c) (c_wrap_secs c) (c_publish_time c) (c_add_loc c) (c_start_time c) (c_stop_time c) (c_timeoffset c) (c_insert_sidx c) (c_stl_loss c) (c_emsg_last c).
(** [cfg.seg_duration = v] (attribute of configprocessor.py 64-115) *)
Definition set_seg_dur (v : Z) (c : config) : config :=
  mkCfg (c_ast c) (c_ato c) (c_atc c) (c_spd c) (c_aet c) (c_mpdur c) (c_tsbd c) (c_mup c) (c_chunkdur c) (c_last_nrs c) (c_init_off c) (c_tfdt32 c) (c_pph c) (c_xlink c) (c_etp c) (c_etpdur c) (c_insert_ad c) (c_callback c) (c_cont_mp c) (c_segtl c) (c_segtlnr c) (c_multi_url c) (c_peroff c) (c_scte35 c) (c_utc c) (c_start_nr c) (c_content_name c) (c_base_url c) (c_rel_path c) (c_filename c) (c_ext c) (c_reps c) (c_media_data c) v (c_vod_first c) (c_vod_n c) (c_wrap_secs c) (c_publish_time c) (c_add_loc c) (c_start_time c) (c_stop_time c) (c_timeoffset c) (c_insert_sidx c) (c_stl_loss c) (c_emsg_last c).
(** [cfg.vod_first_segment_in_loop = v] (attribute of configprocessor.py 64-115) *)
Definition set_vod_first (v : Z) (c : config) : config :=
  mkCfg (c_ast c) (c_ato c) (c_atc c) (c_spd c) (c_aet c) (c_mpdur c) (c_tsbd c) (c_mup c) (c_chunkdur c) (c_last_nrs c) (c_init_off c) (c_tfdt32 c) (c_pph c) (c_xlink c) (c_etp c) (c_etpdur c) (c_insert_ad c) (c_callback c) (c_cont_mp c) (c_segtl c) (c_segtlnr c) (c_multi_url c) (c_peroff c) (c_scte35 c) (c_utc c) (c_start_nr c) (c_content_name c) (c_base_url c) (c_rel_path c) (c_filename c) (c_ext c) (c_reps c) (c_media_data c) (c_seg_dur c) v (c_vod_n c) (c_wrap_secs c) (c_publish_time c) (c_add_loc c) (c_start_time c) (c_stop_time c) (c_timeoffset c) (c_insert_sidx c) (c_stl_loss c) (c_emsg_last c).
(** [cfg.vod_nr_segments_in_loop = v] (attribute of configprocessor.py 64-115) *)
Definition set_vod_n (v : Z) (c : config) : config :=
  mkCfg (c_ast c) (c_ato c) (c_atc c) (c_spd c) (c_aet c) (c_mpdur c) (c_tsbd c) (c_mup c) (c_chunkdur c) (c_last_nrs c) (c_init_off c) (c_tfdt32 c) (c_pph c) (c_xlink c) (c_etp c) (c_etpdur c) (c_insert_ad c) (c_callback c) (c_cont_mp c) (c_segtl c) (c_segtlnr c) (c_multi_url c) (c_peroff c) (c_scte35 c) (c_utc c) (c_start_nr c) (c_content_name c) (c_base_url c) (c_rel_path c) (c_filename c) (c_ext c) (c_reps c) (c_media_data c) (c_seg_dur c) (c_vod_first c) v (c_wrap_secs c) (c_publish_time c) (c_add_loc c) (c_start_time c) (c_stop_time c) (c_timeoffset c) (c_insert_sidx c) (c_stl_loss c) (c_emsg_last c).
(** [cfg.vod_wrap_seconds = v] (attribute of configprocessor.py 64-115) *)
Definition set_wrap_secs (v : Z) (c : config) : config :=
  mkCfg (c_ast c) (c_ato c) (c_atc c) (c_spd c) (c_aet c) (c_mpdur c) (c_tsbd c) (c_mup c) (c_chunkdur c) (c_last_nrs c) (c_init_off c) (c_tfdt32 c) (c_pph c) (c_xlink c) (c_etp c) (c_etpdur c) (c_insert_ad c) (c_callback c) (c_cont_mp c) (c_segtl c) (c_segtlnr c) (c_multi_url c) (c_peroff c) (c_scte35 c) (c_utc c) (c_start_nr c) (c_content_name c) (c_base_url c) (c_rel_path c) (c_filename c) (c_ext c) (c_reps c) (c_media_data c) (c_seg_dur c) (c_vod_first c) (c_vod_n c) v (c_publish_time c) (c_add_loc c) (c_start_time c) (c_stop_time c) (c_timeoffset c) (c_insert_sidx c) (c_stl_loss c) (c_emsg_last c).
(** [cfg.publish_time = v] (attribute of configprocessor.py 64-115) *)
Definition set_publish_time (v : Q) (c : config) : config :=
  mkCfg (c_ast c) (c_ato c) (c_atc c) (c_spd c) (c_aet c) (c_mpdur c) (c_tsbd c) (c_mup c) (c_chunkdur c) (c_last_nrs c) (c_init_off c) (c_tfdt32 c) (c_pph c) (c_xlink c) (c_etp c) (c_etpdur c) (c_insert_ad c) (c_callback c) (c_cont_mp c) (c_segtl c) (c_segtlnr c) (c_multi_url c) (c_peroff c) (c_scte35 c) (c_utc c) (c_start_nr c) (c_content_name c) (c_base_url c) (c_rel_path c) (c_filename c) (c_ext c) (c_reps c) (c_media_data c) (c_seg_dur c) (c_vod_first c) (c_vod_n c) (c_wrap_secs c) v (c_add_loc c) (c_start_time c) (c_stop_time c) (c_timeoffset c) (c_insert_sidx c) (c_stl_loss c) (c_emsg_last c).
(** [cfg.add_location = v] (attribute of configprocessor.py 64-115) *)
Definition set_add_loc (v : bool) (c : config) : config :=
  mkCfg (c_ast c) (c_ato c) (c_atc c) (c_spd c) (c_aet c) (c_mpdur c) (c_tsbd c) (c_mup c) (c_chunkdur c) (c_last_nrs c) (c_init_off c) (c_tfdt32 c) (c_pph c) (c_xlink c) (c_etp c) (c_etpdur c) (c_insert_ad c) (c_callback c) (c_cont_mp c) (c_segtl c) (c_segtlnr c) (c_multi_url c) (c_peroff c) (c_scte35 c) (c_utc c) (c_start_nr c) (c_content_name c) (c_base_url c) (c_rel_path c) (c_filename c) (c_ext c) (c_reps c) (c_media_data c) (c_seg_dur c) (c_vod_first c) (c_vod_n c) (c_wrap_secs c) (c_publish_time c) v (c_start_time c) (c_stop_time c) (c_timeoffset c) (c_insert_sidx c) (c_stl_loss c) (c_emsg_last c).
(** [cfg.start_time = v] (attribute of configprocessor.py 64-115) *)
Definition set_start_time (v : option Z) (c : config) : config :=
  mkCfg (c_ast c) (c_ato c) (c_atc c) (c_spd c) (c_aet c) (c_mpdur c) (c_tsbd c) (c_mup c) (c_chunkdur c) (c_last_nrs c) (c_init_off c) (c_tfdt32 c) (c_pph c) (c_xlink c) (c_etp c) (c_etpdur c) (c_insert_ad c) (c_callback c) (c_cont_mp c) (c_segtl c) (c_segtlnr c) (c_multi_url c) (c_peroff c) (c_scte35 c) (c_utc c) (c_start_nr c) (c_content_name c) (c_base_url c) (c_rel_path c) (c_filename c) (c_ext c) (c_reps c) (c_media_data c) (c_seg_dur c) (c_vod_first c) (c_vod_n c) (c_wrap_secs c) (c_publish_time c) (c_add_loc c) v (c_stop_time c) (c_timeoffset c) (c_insert_sidx c) (c_stl_loss c) (c_emsg_last c).
(** [cfg.stop_time = v] (attribute of configprocessor.py 64-115) *)
Definition set_stop_time (v : option Z) (c : config) : config :=
  mkCfg (c_ast c) (c_ato c) (c_atc c) (c_spd c) (c_aet c) (c_mpdur c) (c_tsbd c) (c_mup c) (c_chunkdur c) (c_last_nrs c) (c_init_off c) (c_tfdt32 c) (c_pph c) (c_xlink c) (c_etp c) (c_etpdur c) (c_insert_ad c) (c_callback c) (c_cont_mp c) (c_segtl c) (c_segtlnr c) (c_multi_url c) (c_peroff c) (c_scte35 c) (c_utc c) (c_start_nr c) (c_content_name c) (c_base_url c) (c_rel_path c) (c_filename c) (c_ext c) (c_reps c) (c_media_data c) (c_seg_dur c) (c_vod_first c) (c_vod_n c) (c_wrap_secs c) (c_publish_time c) (c_add_loc c) (c_start_time c) v (c_timeoffset c) (c_insert_sidx c) (c_stl_loss c) (c_emsg_last c).
(** [cfg.timeoffset = v] (attribute of configprocessor.py 64-115) *)
Definition set_timeoffset (v : option Z) (c : config) : config :=
  mkCfg (c_ast c) (c_ato c) (c_atc c) (c_spd c) (c_aet c) (c_mpdur c) (c_tsbd c) (c_mup c) (c_chunkdur c) (c_last_nrs c) (c_init_off c) (c_tfdt32 c) (c_pph c) (c_xlink c) (c_etp c) (c_etpdur c) (c_insert_ad c) (c_callback c) (c_cont_mp c) (c_segtl c) (c_segtlnr c) (c_multi_url c) (c_peroff c) (c_scte35 c) (c_utc c) (c_start_nr c) (c_content_name c) (c_base_url c) (c_rel_path c) (c_filename c) (c_ext c) (c_reps c) (c_media_data c) (c_seg_dur c) (c_vod_first c) (c_vod_n c) (c_wrap_secs c) (c_publish_time c) (c_add_loc c) (c_start_time c) (c_stop_time c) v (c_insert_sidx c) (c_stl_loss c) (c_emsg_last c).
(** [cfg.insert_sidx = v] (attribute of configprocessor.py 64-115) *)
Definition set_insert_sidx (v : bool) (c : config) : config :=
  mkCfg (c_ast c) (c_ato c) (c_atc c) (c_spd c) (c_aet c) (c_mpdur c) (c_tsbd c) (c_mup c) (c_chunkdur c) (c_last_nrs c) (c_init_off c) (c_tfdt32 c) (c_pph c) (c_xlink c) (c_etp c) (c_etpdur c) (c_insert_ad c) (c_callback c) (c_cont_mp c) (c_segtl c) (c_segtlnr c) (c_multi_url c) (c_peroff c) (c_scte35 c) (c_utc c) (c_start_nr c) (c_content_name c) (c_base_url c) (c_rel_path c) (c_filename c) (c_ext c) (c_reps c) (c_media_data c) (c_seg_dur c) (c_vod_first c) (c_vod_n c) (c_wrap_secs c) (c_publish_time c) (c_add_loc c) (c_start_time c) (c_stop_time c) (c_timeoffset c) v (c_stl_loss c) (c_emsg_last c).
(** [cfg.segtimelineloss = v] (attribute of configprocessor.py 64-115) *)
Definition set_stl_loss (v : bool) (c : config) : config :=
  mkCfg (c_ast c) (c_ato c) (c_atc c) (c_spd c) (c_aet c) (c_mpdur c) (c_tsbd c) (c_mup c) (c_chunkdur c) (c_last_nrs c) (c_init_off c) (c_tfdt32 c) (c_pph c) (c_xlink c) (c_etp c) (c_etpdur c) (c_insert_ad c) (c_callback c) (c_cont_mp c) (c_segtl c) (c_segtlnr c) (c_multi_url c) (c_peroff c) (c_scte35 c) (c_utc c) (c_start_nr c) (c_content_name c) (c_base_url c) (c_rel_path c) (c_filename c) (c_ext c) (c_reps c) (c_media_data c) (c_seg_dur c) (c_vod_first c) (c_vod_n c) (c_wrap_secs c) (c_publish_time c) (c_add_loc c) (c_start_time c) (c_stop_time c) (c_timeoffset c) (c_insert_sidx c) v (c_emsg_last c).
(** [cfg.emsg_last_seg = v] (attribute of configprocessor.py 64-115) *)
Definition set_emsg_last (v : bool) (c : config) : config :=
  mkCfg (c_ast c) (c_ato c) (c_atc c) (c_spd c) (c_aet c) (c_mpdur c) (c_tsbd c) (c_mup c) (c_chunkdur c) (c_last_nrs c) (c_init_off c) (c_tfdt32 c) (c_pph c) (c_xlink c) (c_etp c) (c_etpdur c) (c_insert_ad c) (c_callback c) (c_cont_mp c) (c_segtl c) (c_segtlnr c) (c_multi_url c) (c_peroff c) (c_scte35 c) (c_utc c) (c_start_nr c) (c_content_name c) (c_base_url c) (c_rel_path c) (c_filename c) (c_ext c) (c_reps c) (c_media_data c) (c_seg_dur c) (c_vod_first c) (c_vod_n c) (c_wrap_secs c) (c_publish_time c) (c_add_loc c) (c_start_time c) (c_stop_time c) (c_timeoffset c) (c_insert_sidx c) (c_stl_loss c) v.

(** Config.__init__, configprocessor.py:64-115. *)
Definition config_init (base_url : string) : config :=
  mkCfg 0 (Some 0%Q) true None None None None None None [] 0 false (-1) (-1) (-1) (-1) (-1) (-1) false false false [] (-1) 0 [] 0 "" base_url "" "" "" [] [] 0 0 0 0 0%Q false None None None false false false.

(** quantize with an int step, configprocessor.py:55-57 (number already an int). *)
Definition quantize (number step : Z) : result Z :=
  let* q := py_div number step in Ok (q * step).

(** quantize with a float step (float floor division), configprocessor.py:55-57. *)
Definition quantizeQ (number : Z) (step : Q) : result Q :=
  if Qeq_bool step 0 then Err "ZeroDivisionError"
  else Ok (inject_Z (Qfloor (inject_Z number / step)) * step)%Q.

(** ** ModuloPeriod, moduloperiod.py:50-125 *)

(** moduloperiod.py 53-61: the attributes of ModuloPeriod *)
Record modulo := mkModulo {
  mo_ast : Z;     (* _availability_start_time *)
  mo_mup : Q;     (* _minimum_update_period *)
  mo_mpdur : Q;   (* _media_presentation_duration *)
  mo_aet : Q      (* _availability_end_time *)
}.

(** calc_percent, moduloperiod.py:83-86; true division, exact here. *)
Definition mo_percent (mod_secs now : Z) : result Q :=
  let* seconds := py_mod now mod_secs in
  Ok (inject_Z (seconds * 100) / inject_Z mod_secs)%Q.

(** calc_availability_start_time, moduloperiod.py:88-93. *)
Definition mo_calc_ast (mod_secs now : Z) (percent : Q) : result Z :=
  let* period_start := quantize now mod_secs in
  Ok (if Qleb 90 percent then period_start + mod_secs else period_start).

(** calc_media_pres_dur, moduloperiod.py:95-107. *)
Definition mo_calc_mpdur (mod_secs : Z) (percent : Q) : Q :=
  if Qltb percent 10 then (inject_Z (2 * mod_secs) / 10)%Q
  else if Qltb percent 30 then (inject_Z (4 * mod_secs) / 10)%Q
  else if Qltb percent 50 then (inject_Z (6 * mod_secs) / 10)%Q
  else if Qltb percent 90 then (inject_Z (8 * mod_secs) / 10)%Q
  else (inject_Z (2 * mod_secs) / 10)%Q.

(** ModuloPeriod.__init__, moduloperiod.py:53-61. *)
Definition modulo_init (modulo_minutes now : Z) : result modulo :=
  let mod_secs := 60 * modulo_minutes in
  let* percent := mo_percent mod_secs now in
  let* ast := mo_calc_ast mod_secs now percent in
  let mup := (inject_Z mod_secs / 20)%Q in
  let dur := mo_calc_mpdur mod_secs percent in
  Ok (mkModulo ast mup dur (inject_Z ast + dur + mup)%Q).

(** calc_last_segment_number, moduloperiod.py:121-125 (true division). *)
Definition mo_last_nr (m : modulo) (segment_duration : Z) : result Q :=
  if segment_duration =? 0 then Err "ZeroDivisionError"
  else Ok ((inject_Z (mo_ast m) + mo_mpdur m) / inject_Z segment_duration - 1)%Q.

(** compare_with_last_segment, moduloperiod.py:113-119. *)
Definition mo_compare (m : modulo) (segment_number segment_duration : Z) : result Q :=
  if segment_duration =? 0 then Err "ZeroDivisionError"
  else Ok ((inject_Z ((segment_number + 1) * segment_duration)
            - (inject_Z (mo_ast m) + mo_mpdur m)) / inject_Z segment_duration)%Q.

(** ** Config methods *)

(** VodConfig.content_type_for_rep, configprocessor.py:328-334. *)
Fixpoint content_type_for_rep (md : list (string * media)) (r : string)
  : option (string * media) :=
  match md with
  | [] => None
  | (ct, m) :: rest =>
      if str_in r (m_reps m) then Some (ct, m) else content_type_for_rep rest r
  end.

(** update_with_filedata, configprocessor.py:122-129. *)
Definition update_with_filedata (c : config) (parts : list string) (pos : nat)
  : result config :=
  let* name := py_nth parts pos in
  let base := (c_base_url c ++ join "/" (firstn (S pos) parts) ++ "/")%string in
  let rel := join "/" (py_init (skipn (S pos) parts)) in
  let* fn := py_last parts in
  Ok (set_ext (snd (splitext fn)) (set_filename fn (set_rel_path rel
       (set_base_url base (set_content_name name c))))).

(** The loop of update_with_reps, configprocessor.py:136-140; a representation
    that is not configured gives media_data[None], i.e. KeyError. *)
Fixpoint lookup_reps (v : vodcfg) (rs : list string) : result (list rep) :=
  match rs with
  | [] => Ok []
  | r :: rest =>
      match content_type_for_rep (v_media v) r with
      | None => Err "KeyError"
      | Some (ct, m) =>
          let* l := lookup_reps v rest in Ok (mkRep r ct (m_timescale m) :: l)
      end
  end.

(** update_with_reps, configprocessor.py:131-140. *)
Definition update_with_reps (c : config) (v : vodcfg) (parts : list string) (pos : nat)
  : result config :=
  if Nat.ltb (pos + 2) (List.length parts) then
    let* second_last := py_nth parts (List.length parts - 2) in
    let* l := lookup_reps v (split_dunder second_last) in
    Ok (set_reps l c)
  else Ok (set_reps [] c).

(** update_with_vodcfg, configprocessor.py:142-150. *)
Definition update_with_vodcfg (c : config) (v : vodcfg) : config :=
  let c := match c_tsbd c with None => set_tsbd (Some (v_tsbd v)) c | Some _ => c end in
  set_wrap_secs (v_dur v * v_n v)
   (set_seg_dur (v_dur v) (set_media_data (v_media v)
     (set_vod_n (v_n v) (set_vod_first (v_first v) c)))).

(** update_for_tfdt32, configprocessor.py:152-157. *)
Definition update_for_tfdt32 (now_int : Z) (c : config) : result config :=
  let* a := quantize now_int 10800 in
  Ok (set_mup (Some (inject_Z 5400)) (set_mpdur (Some (inject_Z 10800))
       (set_aet (Some (inject_Z (a + 10800))) (set_ast a c)))).

(** update_for_cont_update, configprocessor.py:159-165. *)
Definition update_for_cont_update (now_int : Z) (c : config) : result config :=
  let d := c_seg_dur c in
  let* a := quantize (now_int - d) d in
  Ok (set_mup (Some (inject_Z 10800)) (set_mpdur (Some (inject_Z 10800))
       (set_aet (Some (inject_Z (a + 10800))) (set_ast a c)))).

(** update_with_modulo_period, configprocessor.py:167-173. *)
Definition update_with_modulo_period (m : modulo) (d : Z) (c : config) : result config :=
  let* l := mo_last_nr m d in
  Ok (set_last_nrs (c_last_nrs c ++ [l]) (set_aet (Some (mo_aet m))
       (set_mpdur (Some (mo_mpdur m)) (set_ast (mo_ast m)
         (set_mup (Some (mo_mup m)) c))))).

(** The loop of update_with_aet, configprocessor.py:181-185, over the zipped and
    reversed lists. *)
Fixpoint aet_loop (now_int : Z) (mup : Q) (l : list (Z * Z)) (et : Z) (dur : option Z)
  : Z * option Z :=
  match l with
  | [] => (et, dur)
  | (a, d) :: rest =>
      if Qltb (inject_Z a - 2 * mup)%Q (inject_Z now_int) then (et, dur)
      else aet_loop now_int mup rest a (Some d)
  end.

(** update_with_aet, configprocessor.py:175-188; [pairs] are the end times
    zipped with the media presentation durations, in list order. *)
Definition update_with_aet (now_int : Z) (pairs : list (Z * Z)) (c : config) : result config :=
  match rev pairs with
  | [] => Ok c
  | (lasta, _) :: _ =>
      match c_mup c with
      | None => Err "TypeError"
      | Some mup =>
          let '(et, dur) := aet_loop now_int mup (rev pairs) lasta None in
          Ok (set_mpdur (option_map inject_Z dur) (set_aet (Some (inject_Z et)) c))
      end
  end.

(** The duration loop of process_start_time, configprocessor.py:200-204. *)
Fixpoint end_times (start d : Z) (durs : list Z) (total : Z) : result (list (Z * Z)) :=
  match durs with
  | [] => Ok []
  | x :: rest =>
      let total' := total + x in
      let* e := quantize (start + total') d in
      let* r := end_times start d rest total' in
      Ok ((e, total') :: r)
  end.

(** process_start_time, configprocessor.py:190-212.  [0.999 * d] is exact here. *)
Definition process_start_time (start : Z) (durs : list Z) (now_int : Z)
           (stop : option Z) (c : config) : result config :=
  let d := c_seg_dur c in
  let* a := quantize start d in
  let c := set_start_time (Some a) (set_ast a c) in
  let c := match c_mup c with None => set_mup (Some (inject_Z 10)) c | Some _ => c end in
  let* c :=
    match durs with
    | [] => Ok c
    | _ =>
        let* pairs := end_times start d durs 0 in
        let* lastp := py_last pairs in
        let* q := py_div (fst lastp - a) d in
        let c := set_last_nrs (c_last_nrs c ++ [inject_Z (q - 1)]) c in
        update_with_aet now_int pairs c
    end in
  match stop with
  | None => Ok c
  | Some s =>
      let* st := quantize (py_int_of_Q (inject_Z s + (999#1000) * inject_Z d)%Q) d in
      Ok (set_tsbd (Some (st - a)) (set_mpdur (Some (inject_Z (st - a)))
           (set_stop_time (Some st) c)))
  end.

(** update_publish_time, configprocessor.py:218-225. *)
Definition update_publish_time (now_int : Z) (c : config) : result config :=
  if c_ast c =? 0 then Ok (set_publish_time 0%Q c)
  else match c_mup c with
       | None => Err "TypeError"
       | Some m => let* p := quantizeQ now_int m in Ok (set_publish_time p c)
       end.

(** adjusted_start_number, configprocessor.py:230-236. *)
Definition adjusted_start_number (c : config) : result Z :=
  match c_timeoffset c with
  | None => Ok (c_start_nr c)
  | Some t => let* q := py_div (c_ast c - t) (c_seg_dur c) in Ok (c_start_nr c + q)
  end.

(** adjusted_pto, configprocessor.py:238-243. *)
Definition adjusted_pto (c : config) (pto timescale : Z) : Z :=
  match c_timeoffset c with
  | None => pto
  | Some t => pto + (c_ast c - t) * timescale
  end.

(** stop_number, configprocessor.py:245-250 (float floor division possible). *)
Definition stop_number (c : config) : result (option Z) :=
  match c_stop_time c with
  | None => Ok None
  | Some _ =>
      let* s := adjusted_start_number c in
      match c_mpdur c with
      | None => Err "TypeError"
      | Some m =>
          if c_seg_dur c =? 0 then Err "ZeroDivisionError"
          else Ok (Some (s + Qfloor (m / inject_Z (c_seg_dur c))%Q))
      end
  end.

(** interpret_start_nr, configprocessor.py:523-532. *)
Definition interpret_start_nr (value : string) : result Z :=
  match py_int value with
  | Err _ => Err "ConfigProcessorError"
  | Ok n => if n <? -1 then Err "ConfigProcessorError" else Ok n
  end.

(** url_cfg_keys, configprocessor.py:340-346. *)
Definition url_cfg_keys : list string :=
  ["start"; "ast"; "stop"; "startrel"; "stoprel"; "dur"; "timeoffset"; "init";
   "tsbd"; "mup"; "modulo"; "tfdt"; "cont"; "periods"; "xlink"; "etp";
   "etpDuration"; "insertad"; "mpdcallback"; "continuous"; "segtimeline";
   "segtimelinenr"; "baseurl"; "peroff"; "scte35"; "utc"; "snr"; "ato"; "spd";
   "sidx"; "segtimelineloss"; "sts"; "sid"; "chunkdur"]%string.

(** Local variables of process_url, configprocessor.py:387-394, with cfg. *)
Record ustate := mkU {
  u_cfg : config;
  u_start : option Z;
  u_stop : option Z;
  u_durs : list Z;
  u_toff : option Z;
  u_cont : bool;
  u_mod : option modulo;
  u_addloc : bool
}.
(** configprocessor.py 387-394: at first *)
Definition ustate_init (base_url : string) : ustate :=
  mkU (config_init base_url) None None [] None false None false.
(** assignment to an attribute of cfg in configprocessor.py 395-500 *)
Definition u_setcfg (f : config -> config) (u : ustate) : ustate :=
  mkU (f (u_cfg u)) (u_start u) (u_stop u) (u_durs u) (u_toff u) (u_cont u)
      (u_mod u) (u_addloc u).

(** [if int(value) == 1: cfg.flag = True], configprocessor.py:447-455,477-482. *)
Definition flag_opt (value : string) (f : config -> config) (u : ustate) : result ustate :=
  let* z := py_int value in
  Ok (if z =? 1 then u_setcfg f u else u).

(** [cfg.f = int(value)]. *)
Definition int_opt (value : string) (f : Z -> config -> config) (u : ustate) : result ustate :=
  let* z := py_int value in Ok (u_setcfg (f z) u).

(** max(float(value), 0) *)
Definition Qmax0 (q : Q) : Q := if Qltb q 0 then 0%Q else q.

(** One iteration of the option loop for a known key, configprocessor.py:402-493. *)
Definition url_option (now_int : Z) (key value : string) (u : ustate) : result ustate :=
  let c := u_cfg u in
  if String.eqb key "sts" then Ok u
  else if String.eqb key "sid" then Ok u
  else if String.eqb key "start" || String.eqb key "ast" then
    let* z := py_int value in
    Ok (mkU c (Some z) (u_stop u) (u_durs u) (u_toff u) (u_cont u) (u_mod u) (u_addloc u))
  else if String.eqb key "stop" then
    let* z := py_int value in
    Ok (mkU c (u_start u) (Some z) (u_durs u) (u_toff u) (u_cont u) (u_mod u) (u_addloc u))
  else if String.eqb key "startrel" then
    let* z := py_int value in
    Ok (mkU c (Some (now_int + z)) (u_stop u) (u_durs u) (u_toff u) (u_cont u) (u_mod u) true)
  else if String.eqb key "stoprel" then
    let* z := py_int value in
    Ok (mkU c (u_start u) (Some (now_int + z)) (u_durs u) (u_toff u) (u_cont u) (u_mod u) true)
  else if String.eqb key "dur" then
    let* z := py_int value in
    Ok (mkU c (u_start u) (u_stop u) (u_durs u ++ [z]) (u_toff u) (u_cont u) (u_mod u) (u_addloc u))
  else if String.eqb key "timeoffset" then
    let* z := py_int value in
    Ok (mkU c (u_start u) (u_stop u) (u_durs u) (Some z) (u_cont u) (u_mod u) (u_addloc u))
  else if String.eqb key "init" then int_opt value set_init_off u
  else if String.eqb key "tsbd" then int_opt value (fun z => set_tsbd (Some z)) u
  else if String.eqb key "mup" then int_opt value (fun z => set_mup (Some (inject_Z z))) u
  else if String.eqb key "modulo" then
    let* z := py_int value in
    let* m := modulo_init z now_int in
    Ok (mkU c (u_start u) (u_stop u) (u_durs u) (u_toff u) (u_cont u) (Some m) (u_addloc u))
  else if String.eqb key "tfdt" then Ok (u_setcfg (set_tfdt32 true) u)
  else if String.eqb key "cont" then
    Ok (mkU c (u_start u) (u_stop u) (u_durs u) (u_toff u) true (u_mod u) (u_addloc u))
  else if String.eqb key "periods" then int_opt value set_pph u
  else if String.eqb key "xlink" then int_opt value set_xlink u
  else if String.eqb key "etp" then int_opt value set_etp u
  else if String.eqb key "etpDuration" then int_opt value set_etpdur u
  else if String.eqb key "insertad" then int_opt value set_insert_ad u
  else if String.eqb key "mpdcallback" then int_opt value set_callback u
  else if String.eqb key "continuous" then flag_opt value (set_cont_mp true) u
  else if String.eqb key "segtimeline" then flag_opt value (set_segtl true) u
  else if String.eqb key "segtimelinenr" then flag_opt value (set_segtlnr true) u
  else if String.eqb key "baseurl" then
    Ok (u_setcfg (set_multi_url (c_multi_url c ++ [value])) u)
  else if String.eqb key "peroff" then int_opt value set_peroff u
  else if String.eqb key "scte35" then int_opt value set_scte35 u
  else if String.eqb key "utc" then Ok (u_setcfg (set_utc (split_all "-" value)) u)
  else if String.eqb key "snr" then
    let* z := interpret_start_nr value in Ok (u_setcfg (set_start_nr z) u)
  else if String.eqb key "ato" then
    if String.eqb value "inf" then Ok (u_setcfg (set_ato None) u)
    else Ok (u_setcfg (set_ato (Some (match py_float value with
                                      | Ok q => Qmax0 q | Err _ => 0%Q end))) u)
  else if String.eqb key "spd" then int_opt value (fun z => set_spd (Some z)) u
  else if String.eqb key "sidx" then flag_opt value (set_insert_sidx true) u
  else if String.eqb key "segtimelineloss" then flag_opt value (set_stl_loss true) u
  else if String.eqb key "chunkdur" then
    match py_float value with
    | Ok q => if Qltb 0 q then Ok (u_setcfg (fun c => set_atc false (set_chunkdur (Some q) c)) u)
              else Ok u
    | Err _ => Ok u
    end
  else Err "ConfigProcessorError".

(** The option loop, configprocessor.py:396-494: returns the state and url_pos. *)
Fixpoint url_loop (now_int : Z) (parts : list string) (u : ustate) (pos : nat)
  : result (ustate * nat) :=
  match parts with
  | [] => Ok (u, pos)
  | part :: rest =>
      match split_first "_" part with
      | None => (* split("_",1) has one element *)
          if str_in part url_cfg_keys then Err "ValueError" else Ok (u, pos)
      | Some (key, value) =>
          if str_in key url_cfg_keys then
            let* u' := url_option now_int key value u in
            url_loop now_int rest u' (S pos)
          else Ok (u, pos)
      end
  end.

(** The part of process_url after the content configuration has been read,
    configprocessor.py:500-519. *)
Definition finish_url (now_int : Z) (parts : list string) (pos : nat) (v : vodcfg)
           (u : ustate) : result config :=
  let* c := update_with_reps (u_cfg u) v parts pos in
  let c := update_with_vodcfg c v in
  let* c := match u_start u with
            | None => Ok c
            | Some s => match u_mod u with
                        | Some _ => Err "ConfigProcessorError"
                        | None => process_start_time s (u_durs u) now_int (u_stop u) c
                        end
            end in
  let* c := if c_tfdt32 c then
              if u_cont u then Err "ConfigProcessorError" else update_for_tfdt32 now_int c
            else Ok c in
  let* c := if u_cont u then update_for_cont_update now_int c else Ok c in
  let* c := match u_mod u with
            | None => Ok c
            | Some m => update_with_modulo_period m (c_seg_dur c) c
            end in
  let* c := update_publish_time now_int c in
  let c := if u_addloc u then set_add_loc true c else c in
  Ok (match u_toff u with None => c | Some t => set_timeoffset (Some t) c end).

(** process_url, configprocessor.py:384-519.  [read_vod] stands for opening and
    reading the content's configuration file (lines 497-499). *)
Definition process_url (read_vod : string -> result vodcfg) (base_url : string)
           (parts : list string) (now_int : Z) : result config :=
  let* (u, pos) := url_loop now_int parts (ustate_init base_url) 0%nat in
  let* c := update_with_filedata (u_cfg u) parts pos in
  let u := u_setcfg (fun _ => c) u in
  let* v := read_vod (c_content_name c) in
  finish_url now_int parts pos v u.
