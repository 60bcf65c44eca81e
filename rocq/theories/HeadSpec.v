(** The boxes as the formats define them (ISO/IEC 23001-7 pssh, 14496-15 hvcC,
    and lists of edits in the layout of 14496-12 elst). *)
From Verif Require Import Base BytesModel BoxSpec HeadModel.
Open Scope Z_scope.

Definition fits (n v : Z) : Prop := 0 <= v < 2 ^ n.
Definition be16 (z : Z) : bytes := [z / 256; z mod 256].
(** Size, type and content. *)
Definition plain_box (t content : bytes) : bytes := be32 (8 + blen content) ++ t ++ content.
Definition versioned (v flags : Z) : bytes := be32 (v * 16777216 + flags).

(** A protection header: key ids are listed from version 1 on. *)
Definition pssh_content (v flags : Z) (system : bytes) (kids : list bytes) (d : bytes) : bytes :=
  versioned v flags ++ system ++ (if v =? 0 then [] else be32 (Z.of_nat (List.length kids)) ++ List.concat kids) ++ be32 (blen d) ++ d.
Definition pssh_proper (v flags : Z) (system : bytes) (kids : list bytes) (d : bytes) : Prop :=
  fits 8 v /\ fits 24 flags /\ blen system = 16 /\ Forall (fun k => blen k = 16) kids /\ (v = 0 -> kids = []) /\
  Z.of_nat (List.length kids) < 4294967296 /\ blen d < 4294967296.
(** Where the data of the system starts, counted from the start of the box. *)
Definition pssh_data_at (v : Z) (kids : list bytes) : Z :=
  if v =? 0 then 32 else 36 + 16 * Z.of_nat (List.length kids).

(** A decoder record: fields of bits, most significant first, reserved bits set;
    in an array the reserved bit is 0. *)
Definition unit_bytes (u : bytes) : bytes := be16 (blen u) ++ u.
Definition array_bytes (a : nal_array) : bytes :=
  [na_complete a * 128 + na_type a] ++ be16 (Z.of_nat (List.length (na_units a))) ++ List.concat (map unit_bytes (na_units a)).
Definition hvcc_content (h : hvcc) : bytes :=
  [hv_version h; hv_space h * 64 + hv_tier h * 32 + hv_profile h] ++ hv_compat h ++ hv_constraint h ++ [hv_level h] ++
  be16 (15 * 4096 + hv_spatial h) ++
  [63 * 4 + hv_parallel h; 63 * 4 + hv_chroma h; 31 * 8 + hv_luma_depth h; 31 * 8 + hv_chroma_depth h] ++ be16 (hv_rate h) ++
  [hv_constant h * 64 + hv_layers h * 8 + hv_nested h * 4 + hv_length_size h] ++ [hv_num h] ++ List.concat (map array_bytes (hv_arrays h)).
Definition array_proper (a : nal_array) : Prop :=
  fits 1 (na_complete a) /\ fits 6 (na_type a) /\ fits 16 (Z.of_nat (List.length (na_units a))) /\
  Forall (fun u => fits 16 (blen u)) (na_units a).
Definition hvcc_proper (h : hvcc) : Prop :=
  (fits 8 (hv_version h) /\ fits 2 (hv_space h) /\ fits 1 (hv_tier h) /\ fits 5 (hv_profile h)) /\
  (blen (hv_compat h) = 4 /\ blen (hv_constraint h) = 6 /\ fits 8 (hv_level h) /\ fits 12 (hv_spatial h)) /\
  (fits 2 (hv_parallel h) /\ fits 2 (hv_chroma h) /\ fits 3 (hv_luma_depth h) /\ fits 3 (hv_chroma_depth h)) /\
  (fits 16 (hv_rate h) /\ fits 2 (hv_constant h) /\ fits 3 (hv_layers h) /\ fits 1 (hv_nested h)) /\
  fits 2 (hv_length_size h) /\ fits 8 (hv_num h) /\
  hv_num h = Z.of_nat (List.length (hv_arrays h)) /\ Forall array_proper (hv_arrays h).

(** A list of edits: durations, signed times and rates. *)
Definition wide (v z : Z) : bytes := if v =? 0 then be32 z else be64 z.
Definition width (v : Z) : Z := if v =? 0 then 32 else 64.
Definition edit_bytes (v : Z) (e : adjustment) : bytes :=
  wide v (aj_duration e) ++ wide v (aj_time e mod 2 ^ width v) ++ be16 (aj_rate e) ++ be16 (aj_fraction e).
Definition edit_proper (v : Z) (e : adjustment) : Prop :=
  fits (width v) (aj_duration e) /\ - 2 ^ (width v - 1) <= aj_time e < 2 ^ (width v - 1) /\
  fits 16 (aj_rate e) /\ fits 16 (aj_fraction e).
Definition edits_content (v flags : Z) (l : list adjustment) : bytes :=
  versioned v flags ++ be32 (Z.of_nat (List.length l)) ++ List.concat (map (edit_bytes v) l).
