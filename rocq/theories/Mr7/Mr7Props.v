(** C103: the readers for a snapshot file of the Millennium-WMAP7 simulation. *)
From Coq Require Import Ascii String.
From Verif Require Import Base.Prelude Base.ListLemmas Text.StrModel H5w.H5wModel H5w.H5wSpec H5w.H5wAttrSpec H5w.H5wCases Mr7.Mr7Model Mr7.Mr7Spec Mr7.Mr7Final.
From Coq Require Import ZifyBool ZifyNat.
Local Open Scope Z_scope.
Local Open Scope list_scope.

(** The Fortran program writes one line for every particle of type 1 of a snapshot file, in order,
    with its position, velocity and identifier, whatever was in memory before, and changes no file. *)
Theorem C103_fortran : forall cv undef s0 arg fl n pos vel id, fresh s0 -> sound_files s0 -> plain_name arg -> assoc arg (disk s0) = Some fl -> snapshot (heap fl) n pos vel id ->
  exists l s', fortran_reader cv undef arg s0 = Go l s' /\ disk s' = disk s0 /\ printed n pos vel id l.
Proof. exact c103_fortran. Qed.
Print Assumptions C103_fortran.
Definition e4 (z : Z) : elt := [z; 0; 0; 0].
Definition e8 (z : Z) : elt := [z; 0; 0; 0; 0; 0; 0; 0].
Definition p_data : list elt := map e4 [1; 2; 3; 4; 5; 6].
Definition v_data : list elt := map e4 [11; 12; 13; 14; 15; 16].
Definition k_data : list elt := map e8 [21; 22].
Definition noise (b : Z) : nat -> Z -> elt := fun k i => [b; Z.of_nat k; i; 9].
Definition two := example_heap 2 2 p_data v_data k_data.
Definition two_lines : list line := [([e4 1; e4 2; e4 3], [e4 11; e4 12; e4 13], e8 21); ([e4 4; e4 5; e4 6], [e4 14; e4 15; e4 16], e8 22)].
Definition lines_of {A} (o : out A) : option A := match o with Go a _ => Some a | _ => None end.
Example C103_fortran_case : fresh (example_start two) /\ sound_files (example_start two) /\ plain_name (lit "snap.hdf5") /\ snapshot two 2 p_data v_data k_data /\
  lines_of (fortran_reader no_cv (noise 1) (lit "snap.hdf5") (example_start two)) = Some two_lines.
Proof.
  split; [apply example_fresh|]. split; [apply example_sound_files; reflexivity || lia|]. split; [vm_compute; repeat split; try lia; discriminate|]. split; [apply example_snapshot; lia|]. vm_compute. reflexivity.
Qed.

(** Whatever the datasets of such a file are, so long as they have elements, the Fortran program
    either writes as many lines as the header says, and then the datasets have the types expected
    and fit the arrays, or else is ended. It never touches memory outside its arrays, and it changes
    no file. *)
Theorem C103_fortran_other : forall cv undef s0 arg fl n, fresh s0 -> sound_files s0 -> plain_name arg -> assoc arg (disk s0) = Some fl -> header (heap fl) n -> 1 <= n < 2 ^ 31 ->
  positive_at (heap fl) "Coordinates" -> positive_at (heap fl) "Velocities" -> positive_at (heap fl) "ParticleIDs" ->
  match fortran_reader cv undef arg s0 with
  | Go l s' => disk s' = disk s0 /\ zlen l = n /\ takes (heap fl) "Coordinates" CFloat 4 [3; n] /\ takes (heap fl) "Velocities" CFloat 4 [3; n] /\ takes (heap fl) "ParticleIDs" CInt 8 [n]
  | Stop s' => disk s' = disk s0 /\ ~ (takes (heap fl) "Coordinates" CFloat 4 [3; n] /\ takes (heap fl) "Velocities" CFloat 4 [3; n] /\ takes (heap fl) "ParticleIDs" CInt 8 [n])
  | Wild => False
  end.
Proof. exact c103_fortran_other. Qed.
Print Assumptions C103_fortran_other.
Example C103_fortran_other_case (h := example_heap 1 2 p_data v_data k_data) : header h 1 /\ sound_files (example_start h) /\ ends (fortran_reader no_cv (noise 1) (lit "snap.hdf5") (example_start h)) = 1.
Proof. split; [apply example_header; lia|]. split; [apply example_sound_files; reflexivity || lia|]. vm_compute. reflexivity. Qed.

(** So does the C program, if there are fewer than 2^31 coordinates. *)
Theorem C103_c : forall cv undef files arg fl n pos vel id, sound (heap fl) -> assoc arg files = Some fl -> zlen arg < 500 -> snapshot (heap fl) n pos vel id -> box_size cv (heap fl) ->
  3 * n < 2 ^ 31 -> exists l, c_reader cv undef arg files = Ran l /\ printed n pos vel id l.
Proof. exact c103_c. Qed.
Print Assumptions C103_c.
Example C103_c_case : sound two /\ box_size no_cv two /\ c_reader no_cv (noise 1) (lit "snap.hdf5") (disk (example_start two)) = Ran two_lines.
Proof. split; [apply example_sound; reflexivity || lia|]. split; [apply example_box|]. vm_compute. reflexivity. Qed.
(** With more, what it does is undefined: 3*i overflows, and so does the size of the arrays from
    2^32 on. *)
Theorem C103_c_many : forall cv undef files arg fl n pos vel id, sound (heap fl) -> assoc arg files = Some fl -> zlen arg < 500 -> snapshot (heap fl) n pos vel id -> box_size cv (heap fl) ->
  2 ^ 31 <= 3 * n -> c_reader cv undef arg files = Undefined.
Proof. exact c103_c_many. Qed.
Print Assumptions C103_c_many.
Example C103_c_many_case : forall n, 1 <= n < 2 ^ 31 -> let d := repeat (e4 0) (Z.to_nat (3 * n)) in let k := repeat (e8 0) (Z.to_nat n) in
  sound (example_heap n n d d k) /\ snapshot (example_heap n n d d k) n d d k /\ box_size no_cv (example_heap n n d d k).
Proof. intros n B d k. split; [apply example_sound; unfold d, k, zlen; rewrite ?repeat_length; lia|]. split; [now apply example_snapshot|apply example_box]. Qed.

(** So it is with a name of 500 characters or more, for which there is no room; the Fortran program
    takes the first 500 characters as the name. *)
Theorem C103_c_long_name : forall cv undef files arg, 500 <= zlen arg -> c_reader cv undef arg files = Undefined.
Proof. intros cv undef files arg H. unfold c_reader. apply Z.leb_le in H. now rewrite H. Qed.
Print Assumptions C103_c_long_name.
Theorem C103_fortran_long_name : forall cv undef arg rest s, zlen arg = 500 -> fortran_reader cv undef (arg ++ rest)%list s = fortran_reader cv undef arg s.
Proof.
  intros cv undef arg rest s H. unfold fortran_reader. replace (fit 500 (arg ++ rest)%list) with (fit 500 arg); [reflexivity|]. unfold fit, zlen in *. assert (List.length arg = 500%nat) as L by lia.
  rewrite !firstn_app, !L, !Nat.sub_diag, !firstn_O, !app_nil_r. reflexivity.
Qed.
Print Assumptions C103_fortran_long_name.

(** Without the file neither program writes lines. *)
Theorem C103_missing : forall cv undef s0 arg, fresh s0 -> plain_name arg -> assoc arg (disk s0) = None ->
  (exists s', fortran_reader cv undef arg s0 = Stop s' /\ disk s' = disk s0) /\ c_reader cv undef arg (disk s0) = Left.
Proof. exact c103_missing. Qed.
Print Assumptions C103_missing.
Example C103_missing_case : plain_name (lit "none.hdf5") /\ assoc (lit "none.hdf5") (disk (example_start two)) = None.
Proof. split; [vm_compute; repeat split; try lia; discriminate|reflexivity]. Qed.

(** If a file has more particles than its header says, the C program writes outside its arrays. *)
Theorem C103_longer_refuted : exists h, sound h /\ header h 1 /\ box_size no_cv h /\ particles h "Coordinates" CFloat 4 [3; 2] p_data /\
  c_reader no_cv (noise 1) (lit "snap.hdf5") (disk (example_start h)) = Undefined.
Proof.
  exists (example_heap 1 2 p_data v_data k_data). split; [apply example_sound; reflexivity || lia|]. split; [apply example_header; lia|]. split; [apply example_box|].
  split; [apply (example_dataset _ _ _ _ _ "Coordinates" 3 real4); cbn; auto|]. vm_compute. reflexivity.
Qed.
Print Assumptions C103_longer_refuted.
(** If it has fewer, both programs write lines with what was in memory before. *)
Theorem C103_shorter_refuted : exists h, sound h /\ header h 3 /\ box_size no_cv h /\ particles h "Coordinates" CFloat 4 [3; 2] p_data /\
  (forall b, exists l, lines_of (fortran_reader no_cv (noise b) (lit "snap.hdf5") (example_start h)) = Some l /\ c_reader no_cv (noise b) (lit "snap.hdf5") (disk (example_start h)) = Ran l /\
     firstn 2 l = two_lines /\ map snd l = [e8 21; e8 22; [b; 3; 2; 9]]).
Proof.
  exists (example_heap 3 2 p_data v_data k_data). split; [apply example_sound; reflexivity || lia|]. split; [apply example_header; lia|]. split; [apply example_box|].
  split; [apply (example_dataset _ _ _ _ _ "Coordinates" 3 real4); cbn; auto|]. intro b. eexists. split; [vm_compute; reflexivity|]. split; [vm_compute; reflexivity|]. split; vm_compute; reflexivity.
Qed.
Print Assumptions C103_shorter_refuted.
(** A file without particles of type 1 has no group for them, and both programs are ended. *)
Theorem C103_none_refuted : exists h, sound h /\ header h 0 /\ box_size no_cv h /\
  ends (fortran_reader no_cv (noise 1) (lit "snap.hdf5") (example_start h)) = 1 /\ c_reader no_cv (noise 1) (lit "snap.hdf5") (disk (example_start h)) = Left.
Proof.
  exists [{| o_node := Group [(lit "Header", 1%nat)]; o_attrs := [] |}; {| o_node := Group []; o_attrs := [(lit "BoxSize", {| a_ty := real8; a_dims := []; a_data := [repeat 0 8] |}); (lit "NumPart_ThisFile", {| a_ty := int4; a_dims := [6]; a_data := repeat (e4 0) 6 |})] |}].
  assert (lit "BoxSize" <> lit "NumPart_ThisFile") as D by discriminate.
  split; [|split; [|split; [|split; vm_compute; reflexivity]]].
  - split; [eexists _, _; split; reflexivity|]. constructor; [|constructor; [|constructor]]; (split; [cbn; split; repeat constructor; intuition congruence|]); split; repeat constructor; cbn; intuition congruence.
  - eexists. split; [eexists _, _; split; [exists 1%nat; eexists; split; [eapply leads_on; [reflexivity|reflexivity|left; reflexivity|apply leads_here]|split; [reflexivity|split; reflexivity]]|reflexivity]|].
    split; [split; reflexivity|]. split; [reflexivity|]. exists (e4 0). split; [reflexivity|]. exists 0, 0, 0, 0. repeat split; repeat constructor; lia.
  - eexists. split; [eexists _, _; split; [exists 1%nat; eexists; split; [eapply leads_on; [reflexivity|reflexivity|left; reflexivity|apply leads_here]|split; [reflexivity|split; reflexivity]]|reflexivity]|].
    split; [reflexivity|]. left. split; reflexivity.
Qed.
Print Assumptions C103_none_refuted.
