(** C103: the readers in python and IDL for a snapshot file of the Millennium-WMAP7 simulation. *)
From Coq Require Import Ascii String.
From Verif Require Import Base.Prelude Text.StrModel H5w.H5wModel H5w.H5wSpec H5w.H5wAttrSpec H5w.H5wCases Mr7.Mr7Model Mr7.Mr7Spec Mr7.Mr7Final Mr7.Mr7Props Mr7.Mr7PyModel Mr7.Mr7PySpec Mr7.Mr7PyFinal.
Local Open Scope Z_scope.
Local Open Scope list_scope.

(** pos[i,c], vel[i,c] and ids[i] are the coordinates, velocities and identifier of particle i of the
    file, for any number of particles (also one for which the C program overflows, C103_c_many). *)
Theorem C103_python : forall files fl n pos vel id b, sound (heap fl) -> assoc first_file files = Some fl -> snapshot (heap fl) n pos vel id -> plain_header (heap fl) n -> attribute_at (heap fl) [lit "Header"] (lit "BoxSize") b ->
  exists e P V K, python_reader files = Ok (a_data b, e, P, V, K) /\ four e n /\ fst P = [n; 3] /\ fst V = [n; 3] /\ fst K = [n] /\
  forall i, 0 <= i < n -> np_elem K [i] = elem [n] id [i] /\ forall c, 0 <= c < 3 -> np_elem P [i; c] = elem [3; n] pos [c; i] /\ np_elem V [i; c] = elem [3; n] vel [c; i].
Proof. exact python_snapshot. Qed.
Print Assumptions C103_python.
(** In IDL they are pos[c,i], vel[c,i] and ids[i]. *)
Theorem C103_idl : forall files fl n pos vel id b, sound (heap fl) -> assoc first_file files = Some fl -> snapshot (heap fl) n pos vel id -> plain_header (heap fl) n -> attribute_at (heap fl) [lit "Header"] (lit "BoxSize") b ->
  exists e P V K, idl_reader files = Ok (a_data b, e, P, V, K) /\ four e n /\ fst P = [3; n] /\ fst V = [3; n] /\ fst K = [n] /\
  forall i, 0 <= i < n -> idl_elem K [i] = elem [n] id [i] /\ forall c, 0 <= c < 3 -> idl_elem P [c; i] = elem [3; n] pos [c; i] /\ idl_elem V [c; i] = elem [3; n] vel [c; i].
Proof. exact idl_snapshot. Qed.
Print Assumptions C103_idl.
Definition two_files (h : list obj) : list (str * dfile) := [(lit "other", {| heap := []; writable := false |}); (first_file, {| heap := h; writable := false |})].
Example C103_python_case : assoc first_file (two_files two) = Some {| heap := two; writable := false |} /\ sound two /\ snapshot two 2 p_data v_data k_data /\ plain_header two 2 /\
  python_reader (two_files two) = Ok ([repeat 0 8], bytes4 2, ([2; 3], p_data), ([2; 3], v_data), ([2], k_data)) /\ np_elem ([2; 3], p_data) [1; 0] = Some (e4 4) /\
  idl_reader (two_files two) = Ok ([repeat 0 8], bytes4 2, ([3; 2], p_data), ([3; 2], v_data), ([2], k_data)) /\ idl_elem ([3; 2], p_data) [0; 1] = Some (e4 4).
Proof.
  split; [reflexivity|]. split; [apply example_sound; reflexivity || lia|]. split; [apply example_snapshot; lia|]. split; [|repeat split; vm_compute; reflexivity].
  destruct (example_header 2 2 p_data v_data k_data ltac:(lia)) as (a & (x & l & H & E) & C). exists a. split; [exists x, l; now split|]. split; [exact C|].
  destruct H as (k & o & Le & N & Nx & El). inversion Le as [|? ? ? ? ? ? ? N0 No Li Re]; subst. injection N0 as <-. injection No as <-. inversion Re; subst.
  destruct Li as [Li | [Li | []]]; [|discriminate Li]. injection Li as <-. injection N as <-. cbn in E. injection E as <-. reflexivity.
Qed.

(** The arrays are the datasets as they are in the file, whatever the header says of the number of
    particles and whatever their types; the compiled programs differ (C103_longer_refuted, C103_shorter_refuted). *)
Theorem C103_scripts_whole : forall files fl b a e dp dv di, sound (heap fl) -> assoc first_file files = Some fl ->
  attribute_at (heap fl) [lit "Header"] (lit "BoxSize") b -> attribute_at (heap fl) [lit "Header"] (lit "NumPart_ThisFile") a -> a_dims a = [zlen (a_data a)] -> nth_error (a_data a) 1 = Some e ->
  dataset_at (heap fl) [lit "PartType1"; lit "Coordinates"] dp -> dataset_at (heap fl) [lit "PartType1"; lit "Velocities"] dv -> dataset_at (heap fl) [lit "PartType1"; lit "ParticleIDs"] di ->
  python_reader files = Ok (a_data b, e, (rev (d_dims dp), d_data dp), (rev (d_dims dv), d_data dv), (rev (d_dims di), d_data di)) /\
  idl_reader files = Ok (a_data b, e, (d_dims dp, d_data dp), (d_dims dv, d_data dv), (d_dims di, d_data di)).
Proof. exact scripts_whole. Qed.
Print Assumptions C103_scripts_whole.
Example C103_scripts_whole_case : (forall n, 0 <= n < 2 ^ 32 -> header (example_heap n 2 p_data v_data k_data) n) /\
  python_reader (two_files (example_heap 3 2 p_data v_data k_data)) = Ok ([repeat 0 8], bytes4 3, ([2; 3], p_data), ([2; 3], v_data), ([2], k_data)).
Proof. split; [intros n B; now apply example_header|vm_compute; reflexivity]. Qed.

(** Without the file, or with one which has no particles of type 1 and so no group for them, there is an error. *)
Theorem C103_scripts_missing : forall files, assoc first_file files = None -> python_reader files = Err EIO /\ idl_reader files = Err ERuntime.
Proof. exact py_missing. Qed.
Print Assumptions C103_scripts_missing.
Example C103_scripts_missing_case : assoc first_file (disk (example_start two)) = None.
Proof. reflexivity. Qed.
Theorem C103_scripts_none_refuted : exists h, sound h /\ header h 0 /\ python_reader (two_files h) = Err EKey /\ idl_reader (two_files h) = Err ERuntime.
Proof.
  exists [{| o_node := Group [(lit "Header", 1%nat)]; o_attrs := [] |}; {| o_node := Group []; o_attrs := [(lit "BoxSize", {| a_ty := real8; a_dims := []; a_data := [repeat 0 8] |}); (lit "NumPart_ThisFile", {| a_ty := int4; a_dims := [6]; a_data := repeat (e4 0) 6 |})] |}].
  assert (lit "BoxSize" <> lit "NumPart_ThisFile") as D by discriminate.
  split; [|split; [|split; vm_compute; reflexivity]].
  - split; [eexists _, _; split; reflexivity|]. constructor; [|constructor; [|constructor]]; (split; [cbn; split; repeat constructor; intuition congruence|]); split; repeat constructor; cbn; intuition congruence.
  - eexists. split; [eexists _, _; split; [exists 1%nat; eexists; split; [eapply leads_on; [reflexivity|reflexivity|left; reflexivity|apply leads_here]|split; [reflexivity|split; reflexivity]]|reflexivity]|].
    split; [split; reflexivity|]. split; [reflexivity|]. exists (e4 0). split; [reflexivity|]. exists 0, 0, 0, 0. repeat split; repeat constructor; lia.
Qed.
Print Assumptions C103_scripts_none_refuted.
