(** C99: programs which read snapshots of the Millennium-2 simulation. *)
From Coq Require Import Ascii String.
From Verif Require Import Base.Prelude Formats.FileSpec Formats.CatSpec Fortran.RegionSpec Fortran.GroupTabSpec.
From Verif Require Import Mill2.SnapModel Mill2.SnapSpec Mill2.SnapFinal Mill2.SnapCFinal.
Local Open Scope Z_scope.

(** the C program writes every particle of a file, whatever was in memory *)
Theorem C99_c little irec0 header0 malloc cat extra content : memory_ok irec0 header0 malloc -> m2_file little cat extra content ->
  c_program little irec0 header0 malloc content = Ok (particle_lines (fun v => v) cat).
Proof. intros M H. exact (c_final little irec0 header0 malloc M cat extra content H). Qed.
Print Assumptions C99_c.
(** it stops if the header is not in a record of 256 bytes, *)
Theorem C99_c_marker little irec0 header0 malloc a b h rest : memory_ok irec0 header0 malloc -> 0 <= a < 2 ^ 32 -> 0 <= b < 2 ^ 32 -> zlen h = 256 -> a <> 256 \/ b <> 256 ->
  c_program little irec0 header0 malloc (number_bytes little 4 a ++ h ++ number_bytes little 4 b ++ rest) = Err ERuntime.
Proof. intro M. exact (marker_final little irec0 header0 malloc M a b h rest). Qed.
Print Assumptions C99_c_marker.
(** as for a file with the other byte order *)
Theorem C99_c_order little irec0 header0 malloc cat extra content : memory_ok irec0 header0 malloc -> m2_file (negb little) cat extra content ->
  c_program little irec0 header0 malloc content = Err ERuntime.
Proof. exact (order_final little irec0 header0 malloc cat extra content). Qed.
Print Assumptions C99_c_order.
(** but it does not notice that the file is cut off *)
Theorem C99_c_short_refuted : ~ (forall little irec0 header0 malloc cat extra content k, memory_ok irec0 header0 malloc -> m2_file little cat extra content -> Z.of_nat k < 288 + 32 * count cat ->
  exists e, c_program little irec0 header0 malloc (firstn k content) = Err e).
Proof. exact short_refuted. Qed.
Print Assumptions C99_c_short_refuted.

(** the Fortran program gives the number of particles of the simulation, the box size and every
    particle, from the first [k] bytes of a file if they are enough, and an error otherwise *)
Theorem C99_fortran little cat extra content k : m2_file little cat extra content -> 12 * count cat < 2 ^ 31 ->
  fortran_program little (firstn k content) =
  if Z.of_nat k <? 288 + 32 * count cat then Err EIO else Ok (signed64 (all_particles cat), scalar cat "Header/BoxSize", particle_lines signed64 cat).
Proof. intro H. exact (fortran_final little cat extra content H k). Qed.
Print Assumptions C99_fortran.
Theorem C99_idl little cat extra content k : m2_file little cat extra content -> 0 < count cat -> 12 * count cat < 2 ^ 31 ->
  idl_program little (firstn k content) =
  if Z.of_nat k <? 288 + 32 * count cat then Err EIO else
  Ok (map signed (cat "Header/NumPart_ThisFile"%string), (cat "PartType1/Coordinates"%string, cat "PartType1/Velocities"%string, map signed64 (cat "PartType1/ParticleIDs"%string))).
Proof. intro H. exact (idl_final little cat extra content H k). Qed.
Print Assumptions C99_idl.
(** a file without particles is an error in IDL *)
Theorem C99_idl_empty little cat extra content : m2_file little cat extra content -> count cat = 0 -> idl_program little content = Err EValue.
Proof. intro H. exact (idl_empty little cat extra content H). Qed.
Print Assumptions C99_idl_empty.
(** positions of 2 GB or more *)
Theorem C99_large little cat extra content : m2_file little cat extra content -> 2 ^ 31 <= 12 * count cat -> fortran_program little content = Err EIO /\ idl_program little content = Err EIO.
Proof. intro H. exact (large_final little cat extra content H). Qed.
Print Assumptions C99_large.

(** with particles of type 0 in the file, none of the programs gives those of type 1 *)
Theorem C99_fortran_types_refuted : ~ (forall little cat content, mixed_file little cat content -> 0 < nth 0 (cat "Header/NumPart_ThisFile"%string) 0 -> exists t b, fortran_program little content = Ok (t, b, particle_lines signed64 cat)).
Proof. exact fortran_mixed_refuted. Qed.
Print Assumptions C99_fortran_types_refuted.
Theorem C99_c_types_refuted : ~ (forall little irec0 header0 malloc cat content, memory_ok irec0 header0 malloc -> mixed_file little cat content -> 0 < nth 0 (cat "Header/NumPart_ThisFile"%string) 0 ->
  (exists e, c_program little irec0 header0 malloc content = Err e) \/ c_program little irec0 header0 malloc content = Ok (particle_lines (fun v => v) cat)).
Proof. exact c_mixed_refuted. Qed.
Print Assumptions C99_c_types_refuted.
Theorem C99_idl_types_refuted : ~ (forall little cat content, mixed_file little cat content -> 0 < nth 0 (cat "Header/NumPart_ThisFile"%string) 0 ->
  (exists e, idl_program little content = Err e) \/ exists np vel id, idl_program little content = Ok (np, (cat "PartType1/Coordinates"%string, vel, id))).
Proof. exact idl_mixed_refuted. Qed.
Print Assumptions C99_idl_types_refuted.

(** two particles, one with an id above 2^63, in a simulation with 10^10 particles *)
Example C99_ex : let content := file_bytes false (M2_snapshot (ex_cat 0)) ++ [1; 2; 3] in
  m2_file false (ex_cat 0) [1; 2; 3] content /\ memory_ok (repeat 0 4) (repeat 0 256) (fun n => repeat 0 (Z.to_nat n)) /\ count (ex_cat 0) = 2 /\
  c_program false (repeat 0 4) (repeat 0 256) (fun n => repeat 0 (Z.to_nat n)) content = Ok [([11; 12; 13; 31; 32; 33], 2 ^ 63 + 5); ([21; 22; 23; 41; 42; 43], 6)] /\
  fortran_program false content = Ok (10000000000, 4636737291354636288, [([11; 12; 13; 31; 32; 33], 5 - 2 ^ 63); ([21; 22; 23; 41; 42; 43], 6)]) /\
  idl_program false content = Ok ([0; 2; 0; 0; 0; 0], ([11; 12; 13; 21; 22; 23], [31; 32; 33; 41; 42; 43], [5 - 2 ^ 63; 6])).
Proof. cbn zeta. split; [apply ex_file|]. split; [apply ex_memory|]. vm_compute. repeat split. Qed.
