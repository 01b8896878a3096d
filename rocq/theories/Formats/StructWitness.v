(** Examples of files with arrays of structures. *)
From Coq Require Import Ascii String.
From Verif.Base Require Import Prelude ListLemmas Order.
From Verif.Binary Require Import BinModel NameProofs LayoutProofs EndianProofs FortranProofs UsedProofs TreeProofs.
From Verif.Text Require StrModel.
From Verif.Formats Require Import RefuseProofs ReaderModel StructModel FileSpec ReaderProofs RunProofs CatSpec CatProofs SnapProofs CatFinal StructSpec StructLayout StructProofs StructFinal StructOpen StructTop.
From Coq Require Import ZifyBool ZifyNat.
Local Open Scope Z_scope.

(** *** checking the hypotheses *)
Fixpoint zlist_eqb (a b : list Z) : bool := match a, b with [], [] => true | x :: a, y :: b => (x =? y) && zlist_eqb a b | _, _ => false end.
Lemma zlist_eqb_eq a : forall b, zlist_eqb a b = true -> a = b.
Proof. induction a as [|x a IH]; intros [|y b] H; try discriminate; [reflexivity|]. cbn in H. apply andb_true_iff in H. destruct H as [H1 H2]. f_equal; [lia | now apply IH]. Qed.
Definition inb (n v : Z) : bool := (0 <=? v) && (v <? n).
Lemma inb_all n l : forallb (inb n) l = true -> Forall (fun v => 0 <= v < n) l.
Proof. rewrite forallb_forall, Forall_forall. intros H v Hv. specialize (H v Hv). unfold inb in H. lia. Qed.
Definition pieceb (p : piece) : bool :=
  match p with
  | Data _ _ size shape vals => (0 <? size) && forallb (fun s => 0 <=? s) shape && (zlen vals =? fold_left Z.mul shape 1) && forallb (inb (256 ^ size)) vals
  | Mark n => inb (2 ^ 32) n
  | Raw _ => true
  end.
Lemma pieceb_ok p : pieceb p = true -> piece_ok p.
Proof.
  destruct p; cbn [pieceb piece_ok]; [|unfold inb; lia | reflexivity]. rewrite !andb_true_iff. intros [[[H1 H2] H3] H4]. split; [lia|]. split; [|split; [lia | now apply inb_all]]. rewrite Forall_forall. rewrite forallb_forall in H2. intros v Hv. specialize (H2 v Hv). lia.
Qed.
Lemma piecesb_ok l : forallb pieceb l = true -> Forall piece_ok l.
Proof. rewrite forallb_forall, Forall_forall. intros H p Hp. apply pieceb_ok. auto. Qed.
Definition memberb (little : bool) (s : structure) (bytes : list Z) (p : member * Z) : bool :=
  let (m, off) := p in
  (zlen (s (m_name m)) =? m_count m) && forallb (inb (256 ^ m_size m)) (s (m_name m)) &&
  zlist_eqb (zslice bytes off (off + m_size m * m_count m)) (concat (map (number_bytes little (m_size m)) (s (m_name m)))).
Definition imageb (little : bool) (l : list (member * Z)) (size : Z) (s : structure) (bytes : list Z) : bool :=
  (zlen bytes =? size) && forallb (inb 256) bytes && forallb (memberb little s bytes) l.
Lemma imageb_ok little r size s bytes : imageb little r size s bytes = true -> image little (map fst r) (map snd r) size s bytes.
Proof.
  unfold imageb. rewrite !andb_true_iff. intros [[H1 H2] H3]. split; [lia|]. split; [now apply inb_all|]. induction r as [|[m off] r IH]; [constructor|]. cbn [forallb] in H3. apply andb_true_iff in H3. destruct H3 as [Hm H3]. cbn [map fst snd]. constructor; [|now apply IH].
  unfold memberb in Hm. rewrite !andb_true_iff in Hm. destruct Hm as [[A B] C]. split; [lia|]. split; [now apply inb_all | now apply zlist_eqb_eq].
Qed.
(** bytes of a structure, with [pad] between the members *)
Fixpoint build (little : bool) (pad from : Z) (s : structure) (l : list (member * Z)) (size : Z) : list Z :=
  match l with
  | [] => repeat pad (Z.to_nat (size - from))
  | (m, off) :: l' => repeat pad (Z.to_nat (off - from)) ++ concat (map (number_bytes little (m_size m)) (s (m_name m))) ++ build little pad (off + m_size m * m_count m) s l' size
  end.
Definition lookup (d : list (string * list Z)) (other : string -> list Z) (name : string) : list Z :=
  match List.find (fun p => String.eqb (fst p) name) d with Some (_, v) => v | None => other name end.
(** zeros for everything that is not given *)
Definition zeros (l : list member) (name : string) : list Z :=
  match List.find (fun m => String.eqb (m_name m) name) l with Some m => repeat 0 (Z.to_nat (m_count m)) | None => [] end.
Definition sample (l : list member) (d : list (string * list Z)) : structure := lookup d (zeros l).
Definition header (d : list (string * list Z)) : catalogue := lookup d (fun name => if String.eqb name "Header/bounds" then repeat 0 6 else [0]).

Definition the_layout (align : bool) (l : list member) := np_layout align 0 1 l.
Lemma aligned_layout l : sizes_ok l -> let r := the_layout true l in c_layout l (map snd (fst r)) (snd r) /\ map fst (fst r) = l.
Proof. intros H r. destruct (np_aligned l H). now split. Qed.
Lemma sample_images little align l pad ds : sizes_ok l -> let r := the_layout align l in
  forallb (fun d => imageb little (fst r) (snd r) (sample l d) (build little pad 0 (sample l d) (fst r) (snd r))) ds = true ->
  Forall2 (image little l (map snd (fst r)) (snd r)) (map (sample l) ds) (map (fun d => build little pad 0 (sample l d) (fst r) (snd r)) ds).
Proof.
  intros Hs r H. assert (map fst (fst r) = l) as E by (destruct align; [apply np_aligned, Hs | apply layout_packed]). induction ds as [|d ds IH]; [constructor|]. cbn [forallb] in H. apply andb_true_iff in H. destruct H as [H1 H2]. cbn [map]. constructor; [|now apply IH]. apply imageb_ok in H1. rewrite E in H1. exact H1.
Qed.

(** *** Rockstar *)
(** revision 2, with galaxies; two halos with particles 0-2 and 3-4 *)
Definition two_halos : list (list (string * list Z)) :=
  [[("id", [7]); ("pos", [1; 2; 3; 4; 5; 6]); ("p_start", [0]); ("num_p", [3]); ("halfmass_radius", [9])]; [("id", [8]); ("p_start", [3]); ("num_p", [2]); ("av_density", [11])]]%string.
Definition rockstar_example (halos : list (list (string * list Z))) (nids : Z) : catalogue :=
  header [("Header/num_halos", [zlen halos]); ("Header/num_particles", [nids]); ("Header/format_revision", [2]); ("Header/snap", [1])]%string.
Definition example_halo := rockstar_halo 2 true.
Definition example_offs := map snd (fst (the_layout true example_halo)).
Definition example_size := snd (the_layout true example_halo).
Definition example_images little halos := map (fun d => build little 255 0 (sample example_halo d) (fst (the_layout true example_halo)) example_size) halos.
Definition example_structures halos := map (sample example_halo) halos.
Lemma example_sizes : sizes_ok example_halo. Proof. unfold example_halo. rewrite <- rockstar_same. apply rockstar_ok. Qed.
Lemma example_c_layout : c_layout example_halo example_offs example_size. Proof. apply (aligned_layout _ example_sizes). Qed.
Lemma two_halos_ok little : Forall2 (image little example_halo example_offs example_size) (example_structures two_halos) (example_images little two_halos).
Proof. apply (sample_images little true _ 255 two_halos example_sizes). destruct little; vm_compute; reflexivity. Qed.
Lemma two_halos_header : Forall piece_ok (map (attr_of (rockstar_example two_halos 5)) rockstar_header).
Proof. apply piecesb_ok. vm_compute. reflexivity. Qed.
(** the last halo ends with particle 2^63, which does not exist *)
Definition wrong_halos : list (list (string * list Z)) := [[("p_start", [2 ^ 63 - 1]); ("num_p", [1])]]%string.
Lemma wrong_halos_ok little : Forall2 (image little example_halo example_offs example_size) (example_structures wrong_halos) (example_images little wrong_halos).
Proof. apply (sample_images little true _ 255 wrong_halos example_sizes). destruct little; vm_compute; reflexivity. Qed.
Lemma rockstar_check_wraps little f :
  let content := rockstar_file little (rockstar_example wrong_halos 0) (example_images little wrong_halos) [] [] in
  open_file little content (rockstar true) = (f, Ok tt) -> rockstar_check little content true f = Ok tt.
Proof.
  intros content H. unfold content. change example_halo with (rockstar_halo (revision_of (rockstar_example wrong_halos 0)) true) in *.
  rewrite (rockstar_check_is (rockstar_example wrong_halos 0) true example_offs example_size (example_structures wrong_halos) (example_images little wrong_halos) [] little [] f); [vm_compute; reflexivity | | exact example_c_layout | exact (wrong_halos_ok little) | reflexivity | reflexivity | reflexivity | reflexivity | constructor | constructor | exact H].
  apply piecesb_ok. vm_compute. reflexivity.
Qed.
(** a file with the other byte order *)
Lemma rockstar_foreign : let cat := rockstar_example [] 0 in let content := rockstar_file false cat [] [] [] in
  exists f, open_file true content (rockstar true) = (f, Ok tt) /\ read_attr true content f (nm "Header") (nm "snap") = Ok [2 ^ 56] /\ cat "Header/snap"%string = [1].
Proof. cbv zeta. eexists. split; [vm_compute; reflexivity|]. split; [vm_compute; reflexivity | reflexivity]. Qed.

(** *** VELOCIraptor *)
(** with one of the options which are not implemented *)
Lemma velociraptor_options little content keep np_int : snd (open_file little content (velociraptor np_int keep true)) <> Ok tt.
Proof.
  apply never_exec. unfold velociraptor. apply never_attributes. destruct np_int; [|exact I]. cbn [negb]. apply never_attributes. cbn [never_ok]. intro v. now apply never_attributes.
Qed.
(** two property names, one object *)
Definition the_object := velociraptor_object true.
Definition one_object : list (list (string * list Z)) := [[("haloid", [5]); ("stype", [10]); ("hostfofid", [3]); ("gcm", [1; 2; 3])]]%string.
Definition two_names : list (list Z) := [repeat 65 40; repeat 66 40].
Definition velociraptor_example : catalogue := header [("Header/ng", [1]); ("Header/hsize", [2])]%string.
Definition object_offs := map snd (fst (the_layout false the_object)).
Definition object_size := snd (the_layout false the_object).
Definition object_images little := map (fun d => build little 255 0 (sample the_object d) (fst (the_layout false the_object)) object_size) one_object.
Lemma object_sizes : sizes_ok the_object. Proof. unfold the_object. change true with (negb (1 =? 0)). rewrite <- velociraptor_same. apply velociraptor_ok. Qed.
Lemma object_ok little : Forall2 (image little the_object object_offs object_size) (map (sample the_object) one_object) (object_images little).
Proof. apply (sample_images little false _ 255 one_object object_sizes). destruct little; vm_compute; reflexivity. Qed.
Lemma object_layout : packed_layout the_object object_offs object_size. Proof. apply layout_packed. Qed.
Lemma object_header : Forall piece_ok (map (attr_of velociraptor_example) velociraptor_header).
Proof. apply piecesb_ok. vm_compute. reflexivity. Qed.
Lemma names_ok : Forall (fun a => Forall byte a /\ zlen a = 40) two_names.
Proof. apply Forall_forall. intros a Ha. destruct Ha as [<-|[<-|[]]]; (split; [apply Forall_forall; intros v Hv; apply repeat_spec in Hv; unfold byte; lia | reflexivity]). Qed.

(** *** merger trees *)
Definition the_tree := tree_halo 8 true.
Definition tree_halos : list (list (string * list Z)) := [[("Descendant", [2 ^ 32 - 1]); ("Len", [20]); ("MostBoundID", [2 ^ 40])]; [("Descendant", [0]); ("Pos", [4; 5; 6]); ("SubMassTab", [1; 2; 3; 4; 5; 6])]]%string.
Definition tree_offs := map snd (fst (the_layout true the_tree)).
Definition tree_size := snd (the_layout true the_tree).
Definition tree_images little := map (fun d => build little 255 0 (sample the_tree d) (fst (the_layout true the_tree)) tree_size) tree_halos.
Lemma tree_sizes : sizes_ok the_tree. Proof. unfold the_tree. rewrite <- tree_same. apply tree_ok. now right. Qed.
Lemma tree_images_ok little : Forall2 (image little the_tree tree_offs tree_size) (map (sample the_tree) tree_halos) (tree_images little).
Proof. apply (sample_images little true _ 255 tree_halos tree_sizes). destruct little; vm_compute; reflexivity. Qed.
Lemma tree_c_layout : c_layout the_tree tree_offs tree_size. Proof. apply (aligned_layout _ tree_sizes). Qed.

(** *** Millennium-XXL *)
Definition field_example : catalogue := lookup [("NTask", [1]); ("nn", [1]); ("isw_slabs_per_task", [2]); ("grid", [3; 4])]%string (fun _ => [0]).
Lemma field_ok : records_ok (MXXL_field field_example).
Proof. split; [apply piecesb_ok; vm_compute; reflexivity|]. unfold MXXL_field, record. cbn. repeat (apply Forall_cons; [first [exact I | lia]|]). apply Forall_nil. Qed.
Lemma field_native : ~ opens mxxl_field (MXXL_field field_example) true true [].
Proof. intros (f & H & _). assert (snd (open_file true (file_bytes true (MXXL_field field_example) ++ []) mxxl_field) = Err EIO) as E by (vm_compute; reflexivity). rewrite H in E. discriminate. Qed.
