(** The boxes as the format (Adobe Flash Video File Format Specification 10.1,
    annex C) lays them out; reserved bits are 0. *)
From Verif Require Import Base BytesModel BoxSpec HeadSpec BootModel.
Open Scope Z_scope.

Definition texts_bytes (l : list bytes) : bytes := List.concat (map (fun s => s ++ [0])%list l).
Definition text_ok (s : bytes) : Prop := Forall (fun x => 0 < x < 256) s.
Definition counted (l : list bytes) : bytes := Z.of_nat (List.length l) :: texts_bytes l.
Definition texts_ok (l : list bytes) : Prop := Z.of_nat (List.length l) < 256 /\ Forall text_ok l.
Definition small {A} (l : list A) : Prop := Z.of_nat (List.length l) < 4294967296.

(** Random access: ids of 16 or 32 bits, offsets of 32 or 64 bits. *)
Definition id_width (f : Z) : Z := if f =? 0 then 16 else 32.
Definition id_bytes (f z : Z) : bytes := if f =? 0 then be16 z else be32 z.
Definition entry_bytes (offsets : Z) (e : Z * Z) : bytes := be64 (fst e) ++ wide offsets (snd e).
Definition entry_ok (offsets : Z) (e : Z * Z) : Prop := fits 64 (fst e) /\ fits (width offsets) (snd e).
Definition global_bytes (ids offsets : Z) (g : Z * Z * Z * Z * Z) : bytes :=
  let '(t, s, f, a, o) := g in be64 t ++ id_bytes ids s ++ id_bytes ids f ++ wide offsets a ++ wide offsets o.
Definition global_ok (ids offsets : Z) (g : Z * Z * Z * Z * Z) : Prop :=
  let '(t, s, f, a, o) := g in
  fits 64 t /\ fits (id_width ids) s /\ fits (id_width ids) f /\ fits (width offsets) a /\ fits (width offsets) o.
Definition afra_content (v flags : Z) (a : afra) : bytes :=
  versioned v flags ++ [fa_ids a * 128 + fa_offsets a * 64 + fa_global a * 32] ++ be32 (fa_scale a) ++
  be32 (Z.of_nat (List.length (fa_entries a))) ++ List.concat (map (entry_bytes (fa_offsets a)) (fa_entries a)) ++
  (if fa_global a =? 0 then []
   else be32 (Z.of_nat (List.length (fa_globals a))) ++ List.concat (map (global_bytes (fa_ids a) (fa_offsets a)) (fa_globals a))).
Definition afra_proper (a : afra) : Prop :=
  fits 1 (fa_ids a) /\ fits 1 (fa_offsets a) /\ fits 1 (fa_global a) /\ fa_reserved a = 0 /\ fits 32 (fa_scale a) /\
  small (fa_entries a) /\ small (fa_globals a) /\ (fa_global a = 0 -> fa_globals a = []) /\
  Forall (entry_ok (fa_offsets a)) (fa_entries a) /\ Forall (global_ok (fa_ids a) (fa_offsets a)) (fa_globals a).

(** Run tables of segments and of fragments; a run of duration 0 has an indicator. *)
Definition pair_bytes (e : Z * Z) : bytes := be32 (fst e) ++ be32 (snd e).
Definition asrt_content (v flags : Z) (s : asrt) : bytes :=
  versioned v flags ++ counted (sr_qualities s) ++ be32 (Z.of_nat (List.length (sr_segments s))) ++ List.concat (map pair_bytes (sr_segments s)).
Definition asrt_proper (s : asrt) : Prop :=
  texts_ok (sr_qualities s) /\ small (sr_segments s) /\ Forall (fun e => fits 32 (fst e) /\ fits 32 (snd e)) (sr_segments s).
Definition run_bytes (r : frun) : bytes :=
  be32 (fr_first r) ++ be64 (fr_time r) ++ be32 (fr_dur r) ++ match fr_disc r with Some d => [d] | None => [] end.
Definition run_ok (r : frun) : Prop :=
  fits 32 (fr_first r) /\ fits 64 (fr_time r) /\ fits 32 (fr_dur r) /\ (fr_dur r = 0 <-> fr_disc r <> None).
Definition afrt_content (v flags : Z) (f : afrt) : bytes :=
  versioned v flags ++ be32 (ft_scale f) ++ counted (ft_qualities f) ++ be32 (Z.of_nat (List.length (ft_runs f))) ++ List.concat (map run_bytes (ft_runs f)).
Definition afrt_proper (f : afrt) : Prop :=
  fits 32 (ft_scale f) /\ texts_ok (ft_qualities f) /\ small (ft_runs f) /\ Forall run_ok (ft_runs f).

(** A bootstrap box. *)
Definition asrt_box (s : asrt) : bytes := plain_box (bstr "asrt") (asrt_content 0 0 s).
Definition afrt_box (f : afrt) : bytes := plain_box (bstr "afrt") (afrt_content 0 0 f).
Definition abst_content (v flags : Z) (a : abst) : bytes :=
  versioned v flags ++ be32 (ab_version a) ++ [ab_profile a * 64 + ab_live a * 32 + ab_update a * 16] ++ be32 (ab_scale a) ++
  be64 (ab_time a) ++ be64 (ab_smpte a) ++ (ab_movie a ++ [0]) ++ counted (ab_servers a) ++ counted (ab_qualities a) ++
  (ab_drm a ++ [0]) ++ (ab_meta a ++ [0]) ++
  [Z.of_nat (List.length (ab_segments a))] ++ List.concat (map asrt_box (ab_segments a)) ++
  [Z.of_nat (List.length (ab_fragments a))] ++ List.concat (map afrt_box (ab_fragments a)).
Definition abst_proper (a : abst) : Prop :=
  (fits 32 (ab_version a) /\ fits 2 (ab_profile a) /\ fits 1 (ab_live a) /\ fits 1 (ab_update a)) /\
  (fits 32 (ab_scale a) /\ fits 64 (ab_time a) /\ fits 64 (ab_smpte a)) /\
  (text_ok (ab_movie a) /\ text_ok (ab_drm a) /\ text_ok (ab_meta a)) /\
  (texts_ok (ab_servers a) /\ texts_ok (ab_qualities a) /\ ab_quality_count a = Z.of_nat (List.length (ab_qualities a))) /\
  (Z.of_nat (List.length (ab_segments a)) < 256 /\ Forall (fun s => asrt_proper s /\ blen (asrt_box s) < 4294967296) (ab_segments a)) /\
  (Z.of_nat (List.length (ab_fragments a)) < 256 /\ Forall (fun f => afrt_proper f /\ blen (afrt_box f) < 4294967296) (ab_fragments a)).
