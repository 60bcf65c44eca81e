(** Vocabulary of property C74: replies that a cache may keep. *)
From Verif Require Import Base BytesModel ConfigModel HttpModel EndSpec.
Local Open Scope string_scope.
Open Scope Z_scope.

(** Options by which the times of a session move with the moment of the request. *)
Definition moving_keys : list string := ["startrel"; "stoprel"; "modulo"; "tfdt"; "cont"].
(** A part of the path of a URL that is not such an option. *)
Definition fixed_part (part : string) : Prop :=
  forall k v, part = k ++ "_" ++ v -> ~ In k moving_keys.
(** Media: segments, init segments and thumbnails. *)
Definition media_ext (c : config) : Prop := In (c_ext c) [".m4s"; ".mp4"; ".jpg"].
(** If the server simulates going up and down, up first, this is not the last
    second before it goes down. *)
Definition quiet (c : config) (sec : Z) : Prop :=
  forall u, c_multi_url c = ["u" ++ u] -> going_down c sec false.
(** The reply has content. *)
Definition delivered (rp : reply) : Prop := rp_status rp = 200 \/ rp_status rp = 206.
