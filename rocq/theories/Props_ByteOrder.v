(** Property C09 for every file, whoever wrote it. *)
From Coq Require Import ZArith QArith List Lia.
From Verif Require Import Base BaseFacts Words Floats Structs Strings Headers DmFile Real Station StationRead Unmerged Grid GridRead Query SnOut SpecByteOrder ByteOrderOpen ByteOrderStations ByteOrderGrids ByteOrderCheck.
From Verif Require SpecGrid Props_Station Props_GridFile.
Import ListNotations.
Open Scope Z_scope.

(** What two files show alike: label, navigation, file keys, parts and parameters *)
Definition same_base (a b : gfile) : Prop :=
  gf_label a = gf_label b /\ gf_nav a = gf_nav b /\ gf_data_management a = gf_data_management b /\
  gf_row_keys a = gf_row_keys b /\ gf_column_keys a = gf_column_keys b /\ gf_parts a = gf_parts b /\ gf_parameters a = gf_parameters b.
(** Rows of sounding files hold date and time only; rows of surface files may be stations. *)
Definition texts_in_rows (k : kind) : list bytes := match k with KSounding => [] | KSurface => station_texts end.

(** ** C09 for sounding and surface files *)
(** Both images of the file open, or both are refused alike; once open, label, headers and listing are the same and
    every query has the same answer. *)
Theorem C09_stations : forall k F, Forall sound_word F -> station_file F (texts_in_rows k) ->
  match open_station k (image LE F), open_station k (image BE F) with
  | Ok f, Ok g =>
      gf_endian (rf_file f) = LE /\ gf_endian (rf_file g) = BE /\ same_base (rf_file f) (rf_file g) /\
      rf_type f = rf_type g /\ rf_rows f = rf_rows g /\ rf_cols f = rf_cols g /\ info f = info g /\
      (forall a special, sfjson f a special = sfjson g a special) /\
      (forall order when a special, nearest_time order f when a special = nearest_time order g when a special) /\
      (forall of_q W num_of flt_of fuel a, snxarray_any of_q W num_of flt_of fuel f a = snxarray_any of_q W num_of flt_of fuel g a)
  | Err x, Err y => x = y
  | _, _ => False
  end.
Proof.
  intros k F S SF. destruct (open_station_same F S BE k SF) as [E O]. rewrite E. destruct (open_station k (image LE F)) as [f|x]; [|reflexivity]. cbn [bind].
  specialize (O f eq_refl). split; [exact (od_endian _ _ (os_file _ _ O))|]. split; [reflexivity|]. split; [unfold same_base; cbn [rtwin rf_file twin gf_label gf_nav gf_data_management gf_row_keys gf_column_keys gf_parts gf_parameters]; auto 10|].
  split; [reflexivity|]. split; [reflexivity|]. split; [reflexivity|].
  split; [symmetry; exact (info_same F S BE f _ O SF)|].
  split; [intros a s; symmetry; exact (sfjson_same F S BE f _ O SF a s)|].
  split; [intros o w a s; symmetry; exact (nearest_same F S BE f _ O SF o w a s)|].
  intros of_q W num_of flt_of fuel a. symmetry. exact (snxarray_same F S BE f _ O SF of_q W num_of flt_of fuel a).
Qed.
Print Assumptions C09_stations.
(** A surface file of three reports of two stations: its words, and both byte orders as this package writes them *)
Definition surface_bytes (e : endian) : bytes :=
  Props_Station.bytes_of_result (snd (save e (Props_Station.ex_file KSurface (map Props_Station.ex_one Props_Station.ex_calls)))).
Definition surface_words : list word := words_of (length (surface_bytes LE)) (surface_bytes LE).
Example C09_stations_example : Forall sound_word surface_words /\ station_file surface_words (texts_in_rows KSurface) /\
  image LE surface_words = surface_bytes LE /\ image BE surface_words = surface_bytes BE /\
  (f <- open_station KSurface (image BE surface_words) ;; l <- info f ;; Ok (length l)) = Ok 2%nat.
Proof.
  split; [apply sound_ok; vm_compute; reflexivity|]. split; [apply station_ok; vm_compute; reflexivity|].
  split; [vm_compute; reflexivity|]. split; vm_compute; reflexivity.
Qed.
(** The same file with its first column marked as not in use (-9999) *)
Definition unmark (i : Z) (F : list word) : list word := firstn (Z.to_nat (i - 1)) F ++ Num 4294957297 :: skipn (Z.to_nat i) F.
Definition deleted_words : list word := unmark (column_headers surface_words) surface_words.
Definition shape_of (k : kind) (d : bytes) : res (nat * nat) := f <- open_station k d ;; Ok (length (rf_rows f), length (rf_cols f)).
Example C09_unused_example : at_word surface_words (column_headers surface_words) = Some (Num 9999) /\
  Forall sound_word deleted_words /\ station_file deleted_words (texts_in_rows KSurface) /\ shape_of KSurface (image BE deleted_words) = Ok (2%nat, 0%nat).
Proof.
  split; [vm_compute; reflexivity|]. split; [apply sound_ok; vm_compute; reflexivity|]. split; [apply station_ok; vm_compute; reflexivity|].
  vm_compute. reflexivity.
Qed.

(** ** C09 for grid files *)
Theorem C09_grids : forall F, Forall sound_word F -> grid_file F ->
  match open_grid (image LE F), open_grid (image BE F) with
  | Ok f, Ok g =>
      gf_endian (rg_file f) = LE /\ gf_endian (rg_file g) = BE /\ same_base (rg_file f) (rg_file g) /\
      rg_rows f = rg_rows g /\ rg_cols f = rg_cols g /\ rg_info f = rg_info g /\
      (forall x, In x (rg_info f) -> read_grid f (gl_no x) = read_grid g (gl_no x)) /\
      (forall a, gdxarray f a = gdxarray g a)
  | Err x, Err y => x = y
  | _, _ => False
  end.
Proof.
  intros F S GF. pose proof (open_grid_same F S BE GF) as E. rewrite E. destruct (open_grid (image LE F)) as [f|x] eqn:EF; [|reflexivity]. cbn [bind].
  pose proof (open_grid_is F S f GF EF) as O. split; [exact (od_endian _ _ (og_file _ _ O))|]. split; [reflexivity|]. split; [unfold same_base; cbn [gtwin rg_file twin gf_label gf_nav gf_data_management gf_row_keys gf_column_keys gf_parts gf_parameters]; auto 10|].
  split; [reflexivity|]. split; [reflexivity|]. split; [reflexivity|].
  split; [intros x X; symmetry; exact (read_grid_same F S BE f x O X)|]. intros a. symmetry. exact (gdxarray_same F S BE f a O).
Qed.
Print Assumptions C09_grids.
Definition grid_bytes (e : endian) : bytes :=
  SpecGrid.ok_or [] (snd (save_grid e (set_precision 12 Props_GridFile.ex_file))).
Definition grid_words : list word := words_of (length (grid_bytes LE)) (grid_bytes LE).
Example C09_grids_example : Forall sound_word grid_words /\ grid_file grid_words /\
  image LE grid_words = grid_bytes LE /\ image BE grid_words = grid_bytes BE /\
  (f <- open_grid (image BE grid_words) ;; rs <- mapM (fun x => read_grid f (gl_no x)) (rg_info f) ;; Ok (map (@length _) rs)) = Ok [1; 1]%nat.
Proof.
  split; [apply sound_ok; vm_compute; reflexivity|]. split; [apply grid_ok; vm_compute; reflexivity|].
  split; [vm_compute; reflexivity|]. split; vm_compute; reflexivity.
Qed.
