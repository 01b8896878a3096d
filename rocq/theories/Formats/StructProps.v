(** Property C77: files with arrays of structures (Rockstar, VELOCIraptor, merger trees)
    and the Millennium-XXL formats. *)
From Coq Require Import Ascii String.
From Verif.Base Require Import Prelude ListLemmas Order.
From Verif.Binary Require Import BinModel.
From Verif.Formats Require Import ReaderModel StructModel FileSpec CatSpec CatFinal StructSpec StructLayout StructFinal StructTop StructWitness.
Local Open Scope Z_scope.

(** *** structured types *)
(** np.dtype(..., align=True) puts the members where a C compiler puts them, if the sizes of
    the numbers are powers of two *)
Theorem C77_aligned : forall l, sizes_ok l ->
  map fst (fst (np_layout true 0 1 l)) = l /\ c_layout l (map snd (fst (np_layout true 0 1 l))) (snd (np_layout true 0 1 l)) /\
  forall offs size, c_layout l offs size -> itemsize (np_struct true l) = size.
Proof. intros l H. split; [exact (proj1 (np_aligned l H))|]. split; [exact (proj2 (np_aligned l H))|]. intros offs size Hl. exact (proj1 (struct_size true l offs size H Hl)). Qed.
Print Assumptions C77_aligned.
Example aligned_gaps : let l := [M "a" 4 1; M "b" 8 1; M "c" 2 3]%string in np_layout true 0 1 l = (combine l [0; 8; 16], 24) /\ np_layout false 0 1 l = (combine l [0; 4; 12], 18).
Proof. split; vm_compute; reflexivity. Qed.
(** the type of the halos of the merger trees is not aligned, but that makes no difference *)
Theorem C77_tree_layout : forall id tab offs size, id_size id -> (c_layout (tree_halo id tab) offs size <-> packed_layout (tree_halo id tab) offs size).
Proof. exact @tree_layout. Qed.
Print Assumptions C77_tree_layout.

(** *** Rockstar *)
(** A file in the byte order of the machine with the given halos and particle ids opens,
    gives the numbers of the header and the ids, and the numbers under each name in the
    halos; another name gives a ValueError. *)
Theorem C77_rockstar : forall cat galaxies offs size structures images ids little rest,
  let halo := rockstar_halo (revision_of cat) galaxies in
  Forall piece_ok (map (attr_of cat) rockstar_header) -> c_layout halo offs size -> Forall2 (image little halo offs size) structures images ->
  scalar cat "Header/num_halos" = zlen structures -> zlen structures < 2 ^ 63 -> scalar cat "Header/num_particles" = zlen ids -> zlen ids < 2 ^ 63 ->
  Forall (fun v => 0 <= v < 2 ^ 64) ids -> Forall byte rest ->
  let content := rockstar_file little cat images ids rest in
  exists f, open_file little content (rockstar galaxies) = (f, Ok tt) /\ reads_back little content (rockstar_pieces little cat size images ids) f /\ order_is little little f /\
    (all_bytes_used content f = true <-> rest = []) /\ has_columns little content f (nm "Halo") true halo structures.
Proof. exact @rockstar_opens. Qed.
Print Assumptions C77_rockstar.
(** sanity_check accepts the file if and only if the particles of all halos are among the
    ids, provided that no sum of p_start and num_p overflows *)
Theorem C77_rockstar_check : forall cat galaxies offs size structures images ids little rest f,
  let halo := rockstar_halo (revision_of cat) galaxies in
  Forall piece_ok (map (attr_of cat) rockstar_header) -> c_layout halo offs size -> Forall2 (image little halo offs size) structures images ->
  scalar cat "Header/num_halos" = zlen structures -> zlen structures < 2 ^ 63 -> scalar cat "Header/num_particles" = zlen ids -> zlen ids < 2 ^ 63 ->
  Forall (fun v => 0 <= v < 2 ^ 64) ids -> Forall byte rest ->
  let content := rockstar_file little cat images ids rest in
  open_file little content (rockstar galaxies) = (f, Ok tt) ->
  Forall (fun s => - 2 ^ 63 <= first_particle s + number_of_particles s < 2 ^ 63) structures ->
  (rockstar_check little content galaxies f = Ok tt <-> Forall (fun s => 0 <= first_particle s /\ first_particle s + number_of_particles s <= zlen ids) structures) /\
  (rockstar_check little content galaxies f <> Ok tt -> rockstar_check little content galaxies f = Err EAssert).
Proof. exact @rockstar_check_exact. Qed.
Print Assumptions C77_rockstar_check.
(** if it overflows, a halo with particles that do not exist can be accepted *)
Theorem C77_rockstar_check_refuted : forall little f,
  let content := rockstar_file little (rockstar_example wrong_halos 0) (example_images little wrong_halos) [] [] in
  open_file little content (rockstar true) = (f, Ok tt) -> rockstar_check little content true f = Ok tt.
Proof. exact @rockstar_check_wraps. Qed.
Print Assumptions C77_rockstar_check_refuted.
(** files in the other byte order are opened, but the numbers are wrong *)
Theorem C77_rockstar_foreign_refuted : let cat := rockstar_example [] 0 in let content := rockstar_file false cat [] [] [] in
  exists f, open_file true content (rockstar true) = (f, Ok tt) /\ read_attr true content f (nm "Header") (nm "snap") = Ok [2 ^ 56] /\ cat "Header/snap"%string = [1].
Proof. exact rockstar_foreign. Qed.
Print Assumptions C77_rockstar_foreign_refuted.
Example two_halos_hypotheses : let cat := rockstar_example two_halos 5 in
  revision_of cat = 2 /\ Forall piece_ok (map (attr_of cat) rockstar_header) /\ c_layout example_halo example_offs example_size /\
  Forall2 (image true example_halo example_offs example_size) (example_structures two_halos) (example_images true two_halos) /\
  scalar cat "Header/num_halos" = zlen (example_structures two_halos) /\ example_size = 288 /\ map first_particle (example_structures two_halos) = [0; 3].
Proof. split; [reflexivity|]. split; [exact two_halos_header|]. split; [exact example_c_layout|]. split; [exact (two_halos_ok true)|]. repeat split; vm_compute; reflexivity. Qed.
Example two_halos_read : let content := rockstar_file true (rockstar_example two_halos 5) (example_images true two_halos) [1; 2; 3; 4; 5] [] in
  let f := fst (open_file true content (rockstar true)) in
  snd (open_file true content (rockstar true)) = Ok tt /\ rockstar_check true content true f = Ok tt /\
  (do items <- read_items true content f (nm "Halo"); column true true (rockstar_members 2 true) "p_start" items) = Ok [[0]; [3]].
Proof. repeat split; vm_compute; reflexivity. Qed.
Example wrong_halos_particles : map (fun s => (first_particle s, number_of_particles s)) (example_structures wrong_halos) = [(2 ^ 63 - 1, 1)] /\
  snd (open_file true (rockstar_file true (rockstar_example wrong_halos 0) (example_images true wrong_halos) [] []) (rockstar true)) = Ok tt.
Proof. split; vm_compute; reflexivity. Qed.

(** *** VELOCIraptor *)
Theorem C77_velociraptor : forall cat keep offs size texts structures images little rest,
  let object := velociraptor_object (negb (keep =? 0)) in
  Forall piece_ok (map (attr_of cat) velociraptor_header) -> packed_layout object offs size -> Forall2 (image little object offs size) structures images ->
  Forall (fun a => Forall byte a /\ zlen a = 40) texts -> scalar cat "Header/hsize" = zlen texts -> zlen texts < 2 ^ 63 -> scalar cat "Header/ng" = zlen structures -> Forall byte rest ->
  let content := velociraptor_file little cat texts images rest in
  exists f, open_file little content (velociraptor true keep false) = (f, Ok tt) /\ reads_back little content (velociraptor_pieces little cat (map (as_number little) texts) size images) f /\ order_is little little f /\
    (all_bytes_used content f = true <-> rest = []) /\ has_columns little content f (nm "Halo") false object structures.
Proof. exact @velociraptor_opens. Qed.
Print Assumptions C77_velociraptor.
(** no file at all can be opened with a numpy which does not have np.int ... *)
Theorem C77_velociraptor_refuted : forall little content keep other, snd (open_file little content (velociraptor false keep other)) = Err EName.
Proof. exact @velociraptor_no_np_int. Qed.
Print Assumptions C77_velociraptor_refuted.
(** ... or with one of the options that are not implemented *)
Theorem C77_velociraptor_options : forall little content keep np_int, snd (open_file little content (velociraptor np_int keep true)) <> Ok tt.
Proof. exact @velociraptor_options. Qed.
Print Assumptions C77_velociraptor_options.
Example one_object_hypotheses :
  Forall piece_ok (map (attr_of velociraptor_example) velociraptor_header) /\ packed_layout the_object object_offs object_size /\
  Forall2 (image false the_object object_offs object_size) (map (sample the_object) one_object) (object_images false) /\
  Forall (fun a => Forall byte a /\ zlen a = 40) two_names /\ scalar velociraptor_example "Header/hsize" = zlen two_names /\ scalar velociraptor_example "Header/ng" = 1 /\ object_size = 708.
Proof. split; [exact object_header|]. split; [exact object_layout|]. split; [exact (object_ok false)|]. split; [exact names_ok|]. repeat split; vm_compute; reflexivity. Qed.
Example one_object_read : let content := velociraptor_file false velociraptor_example two_names (object_images false) [] in
  let f := fst (open_file false content (velociraptor true 1 false)) in
  snd (open_file false content (velociraptor true 1 false)) = Ok tt /\
  (do items <- read_items false content f (nm "Halo"); column false false (velociraptor_members 1) "hostfofid" items) = Ok [[3]].
Proof. repeat split; vm_compute; reflexivity. Qed.

(** *** merger trees *)
Theorem C77_tree : forall id tab offs size n_per_tree structures images little rest,
  let halo := tree_halo id tab in
  id_size id -> c_layout halo offs size -> Forall2 (image little halo offs size) structures images ->
  Forall (fun v => 0 <= v < 2 ^ 32) n_per_tree -> zlen n_per_tree < 2 ^ 31 -> zlen structures < 2 ^ 31 -> Forall byte rest ->
  let content := tree_file little n_per_tree images rest in
  exists f, open_file little content (mpa_tree id tab) = (f, Ok tt) /\ reads_back little content (tree_pieces little n_per_tree size images) f /\ order_is little little f /\
    (all_bytes_used content f = true <-> rest = []) /\ has_columns little content f (nm "HaloList") false halo structures.
Proof. exact @tree_opens. Qed.
Print Assumptions C77_tree.
Example tree_hypotheses : c_layout the_tree tree_offs tree_size /\ Forall2 (image true the_tree tree_offs tree_size) (map (sample the_tree) tree_halos) (tree_images true) /\ tree_size = 128.
Proof. split; [exact tree_c_layout|]. split; [exact (tree_images_ok true) | reflexivity]. Qed.
Example tree_read : let content := tree_file true [2] (tree_images true) [] in
  let f := fst (open_file true content (mpa_tree 8 true)) in
  snd (open_file true content (mpa_tree 8 true)) = Ok tt /\ read_dataset true content f (nm "NPerTree") = Ok [2] /\
  (do items <- read_items true content f (nm "HaloList"); column true false (mpa_members 8 true) "MostBoundID" items) = Ok [[2 ^ 40]; [0]].
Proof. repeat split; vm_compute; reflexivity. Qed.

(** *** Millennium-XXL *)
Theorem C77_mxxl_sub_desc : forall cat little rest, consistent cat MXXL_sub_desc -> opens mxxl_sub_desc (pieces_of cat MXXL_sub_desc) little little rest.
Proof. exact @mxxl_sub_desc_opens. Qed.
Print Assumptions C77_mxxl_sub_desc.
(** the constructor of SubTabFile always raises TypeError *)
Theorem C77_mxxl_sub_tab_refuted : forall little content a b c id fl, snd (open_file little content (mxxl_sub_tab a b c id fl)) = Err EType.
Proof. exact @mxxl_sub_tab_fails. Qed.
Print Assumptions C77_mxxl_sub_tab_refuted.
(** FieldFile reads files in the other byte order ... *)
Theorem C77_mxxl_field : forall little cat rest, records_ok (MXXL_field cat) -> scalar cat "nn" < 2 ^ 31 -> scalar cat "isw_slabs_per_task" < 2 ^ 31 -> opens mxxl_field (MXXL_field cat) little (negb little) rest.
Proof. exact @mxxl_field_opens. Qed.
Print Assumptions C77_mxxl_field.
(** ... but not those in the byte order of the machine *)
Theorem C77_mxxl_field_refuted : records_ok (MXXL_field field_example) /\ ~ opens mxxl_field (MXXL_field field_example) true true [].
Proof. exact (conj field_ok field_native). Qed.
Print Assumptions C77_mxxl_field_refuted.
Example field_numbers : scalar field_example "nn" = 1 /\ scalar field_example "isw_slabs_per_task" = 2 /\
  snd (open_file true (file_bytes false (MXXL_field field_example)) mxxl_field) = Ok tt.
Proof. repeat split; vm_compute; reflexivity. Qed.
