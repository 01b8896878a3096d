(** Properties C40-C42 of python/virgo/formats: Gadget snapshots and halo catalogues. *)
From Coq Require Import Ascii String.
From Verif.Base Require Import Prelude ListLemmas Order.
From Verif.Binary Require Import BinModel.
From Verif.Formats Require Import ReaderModel FileSpec CatSpec CatFinal RefuseProofs GadgetSpec GadgetFinal.
Local Open Scope Z_scope.

(** *** C40: Gadget snapshots *)
(** [snapshot_pieces … n] is a snapshot with its header and the first [n] of the blocks it can
    have; either all the blocks are there, or at least three and then the end of the file.
    Opening it gives the datasets and header attributes with the numbers in the file, and no
    other dataset. The last 64 bytes of the header belong to no block, so that hash refuses. *)
Theorem C40_opens : forall little lf cat fill variable_mass extra size vals n rest,
  well_formed cat fill variable_mass extra size vals ->
  (n <= List.length (present (npart_of cat) (the_quantities variable_mass extra)))%nat ->
  Forall piece_ok (stored_blocks cat variable_mass extra size vals n) ->
  n = List.length (present (npart_of cat) (the_quantities variable_mass extra)) \/ (3 <= n)%nat /\ zlen rest < 4 ->
  let pieces := snapshot_pieces cat fill variable_mass extra size vals n in
  let content := file_bytes lf pieces ++ rest in
  exists f, open_file little content (gadget_snapshot extra) = (f, Ok tt) /\ reads_back little content pieces f /\ order_is little lf f /\
    all_bytes_used content f = false /\ hash_stream little content f = Err EIO.
Proof. exact @snapshot_opens. Qed.
Print Assumptions C40_opens.
(** IOError is raised if ... the file does not start with the length of a header *)
Theorem C40_first_length : forall little lf extra n rest, 0 <= n < 2 ^ 32 -> n <> 256 -> n <> 65536 ->
  snd (open_file little (file_bytes lf [Mark n] ++ rest) (gadget_snapshot extra)) = Err EIO.
Proof. exact @first_length_final. Qed.
Print Assumptions C40_first_length.
(** ... the header does not end with its length *)
Theorem C40_header_length : forall little lf cat fill variable_mass extra size vals n rest,
  well_formed cat fill variable_mass extra size vals -> 0 <= n < 2 ^ 32 -> n <> 256 ->
  snd (open_file little (file_bytes lf (Mark 256 :: map (attr_of cat) G_header ++ [Raw fill; Mark n]) ++ rest) (gadget_snapshot extra)) = Err EIO.
Proof. exact @last_length. Qed.
Print Assumptions C40_header_length.
(** ... the length of block [n] fits neither 4 nor 8 byte numbers *)
Theorem C40_block_length : forall little lf cat fill variable_mass extra size vals n q,
  well_formed cat fill variable_mass extra size vals -> nth_error (present (npart_of cat) (the_quantities variable_mass extra)) n = Some q ->
  Forall piece_ok (stored_blocks cat variable_mass extra size vals n) ->
  forall m rest, 0 <= m < 2 ^ 32 ->
  m <> 4 * fold_left Z.mul (q_shape q) 1 * number (npart_of cat) q -> m <> 8 * fold_left Z.mul (q_shape q) 1 * number (npart_of cat) q ->
  snd (open_file little (file_bytes lf (snapshot_pieces cat fill variable_mass extra size vals n ++ [Mark m]) ++ rest) (gadget_snapshot extra)) = Err EIO.
Proof. exact @wrong_start. Qed.
Print Assumptions C40_block_length.
(** ... block [n] does not end with its length *)
Theorem C40_block_end : forall little lf cat fill variable_mass extra size vals n q,
  well_formed cat fill variable_mass extra size vals -> nth_error (present (npart_of cat) (the_quantities variable_mass extra)) n = Some q ->
  Forall piece_ok (stored_blocks cat variable_mass extra size vals n) ->
  forall m rest, 0 <= m < 2 ^ 32 -> m <> full_size (npart_of cat) size q -> full_size (npart_of cat) size q < 2 ^ 32 ->
  Forall piece_ok (arrays (npart_of cat) size vals q) ->
  snd (open_file little (file_bytes lf (snapshot_pieces cat fill variable_mass extra size vals n ++ Mark (full_size (npart_of cat) size q) :: arrays (npart_of cat) size vals q ++ [Mark m]) ++ rest)
         (gadget_snapshot extra)) = Err EIO.
Proof. exact @wrong_end. Qed.
Print Assumptions C40_block_end.
(** ... the file ends in the header *)
Theorem C40_short_header : forall little lf cat fill variable_mass extra size vals k,
  well_formed cat fill variable_mass extra size vals -> 1 <= k < 264 ->
  snd (open_file little (zslice (file_bytes lf (header_pieces cat fill)) 0 k) (gadget_snapshot extra)) = Err EIO.
Proof. exact @cut_header. Qed.
Print Assumptions C40_short_header.
(** ... or after fewer than three of the blocks it should have *)
Theorem C40_missing_blocks : forall little lf cat fill variable_mass extra size vals n q,
  well_formed cat fill variable_mass extra size vals -> nth_error (present (npart_of cat) (the_quantities variable_mass extra)) n = Some q ->
  Forall piece_ok (stored_blocks cat variable_mass extra size vals n) ->
  forall rest, (n < 3)%nat -> zlen rest < 4 ->
  snd (open_file little (file_bytes lf (snapshot_pieces cat fill variable_mass extra size vals n) ++ rest) (gadget_snapshot extra)) = Err EIO.
Proof. exact @no_block. Qed.
Print Assumptions C40_missing_blocks.
(** ... or in a block *)
Theorem C40_short_block : forall little lf cat fill variable_mass extra size vals n q,
  well_formed cat fill variable_mass extra size vals -> nth_error (present (npart_of cat) (the_quantities variable_mass extra)) n = Some q ->
  Forall piece_ok (stored_blocks cat variable_mass extra size vals n) ->
  forall k, let next := file_bytes lf (block (npart_of cat) size vals q) in
  Forall piece_ok (block (npart_of cat) size vals q) -> 4 <= k < zlen next ->
  snd (open_file little (file_bytes lf (snapshot_pieces cat fill variable_mass extra size vals n) ++ zslice next 0 k) (gadget_snapshot extra)) = Err EIO.
Proof. exact @cut_block. Qed.
Print Assumptions C40_short_block.
(** one gas particle and two of type 1, which has mass 1.0 in the mass table *)
Definition ex_cat : catalogue := fun name =>
  if String.eqb name "Header/NumPart_ThisFile" then [1; 2; 0; 0; 0; 0] else if String.eqb name "Header/MassTable" then [0; 4607182418800017408; 0; 0; 0; 0]
  else if String.eqb name "Header/NumPart_Total" then [1; 2; 0; 0; 0; 0] else if String.eqb name "Header/NumPart_Total_HighWord" then [0; 0; 0; 0; 0; 0] else [1].
Definition ex_mass : list bool := [true; false; true; true; true; true].
Definition ex_size (name : str) : Z := if str_eqb name (nm "ParticleIDs") then 8 else 4.
Definition ex_vals (name : str) (i : nat) : list Z :=
  let n := nth i [1; 2; 0; 0; 0; 0] 0 in if str_eqb name (nm "Coordinates") || str_eqb name (nm "Velocities") then zseq 7 (Z.to_nat (3 * n)) else zseq 1000 (Z.to_nat n).
Example ex_wf : well_formed ex_cat (repeat 0 64) ex_mass [] ex_size ex_vals.
Proof.
  split; [|split]; [split| |constructor].
  - unfold attr_of. cbn [map G_header six one fd_name fd_size fd_dims extent]. repeat constructor; cbn; try lia; try reflexivity.
  - reflexivity.
  - repeat constructor.
  - split.
    + repeat constructor; cbn; intro H; repeat (destruct H as [H|H]; [discriminate|]); exact H.
    + repeat constructor; try discriminate; cbn; intro H; repeat (destruct H as [H|H]; [discriminate|]); exact H.
  - repeat constructor.
  - repeat constructor.
  - repeat constructor; cbn; lia.
  - unfold mass_types, zero64, ex_mass. cbn. repeat match goal with |- Forall2 _ (_ :: _) _ => apply Forall2_cons | |- Forall2 _ [] _ => apply Forall2_nil end; split; auto; try discriminate; intros [H|H]; discriminate.
Qed.
Example C40_example : forall little lf, well_formed ex_cat (repeat 0 64) ex_mass [] ex_size ex_vals /\
  List.length (present (npart_of ex_cat) (the_quantities ex_mass [])) = 7%nat /\
  Forall piece_ok (stored_blocks ex_cat ex_mass [] ex_size ex_vals 7) /\
  (let '(f, r) := open_file little (file_bytes lf (snapshot_pieces ex_cat (repeat 0 64) ex_mass [] ex_size ex_vals 7)) (gadget_snapshot []) in
   r = Ok tt /\ read_dataset little (file_bytes lf (snapshot_pieces ex_cat (repeat 0 64) ex_mass [] ex_size ex_vals 7)) f (nm "PartType1/ParticleIDs") = Ok [1000; 1001]).
Proof.
  intros little lf. split; [exact ex_wf|]. split; [reflexivity|]. split.
  - apply Forall_forall. intros p Hp. vm_compute in Hp. repeat (destruct Hp as [<-|Hp]; [cbn [piece_ok]; repeat split; try lia; repeat constructor; lia|]). contradiction.
  - destruct little, lf; vm_compute; split; reflexivity.
Qed.

(** *** C41: byte order from the number of files *)
(** ([order_is]: each block is read in the byte order of the file) *)
Theorem C41_byte_order : forall p nf l cat little lf rest, reads p nf l -> consistent cat l -> 1 <= scalar cat nf <= 65535 ->
  exists f, open_file little (file_bytes lf (pieces_of cat l) ++ rest) p = (f, Ok tt) /\ order_is little lf f.
Proof. exact @byte_order_final. Qed.
Print Assumptions C41_byte_order.
(** not so with 65536 files *)
Definition ex_tab (nfiles : Z) : catalogue := fun name =>
  if String.eqb name "Ngroups" then [1] else if String.eqb name "Nids" then [5] else if String.eqb name "TotNgroups" then [1] else if String.eqb name "NTask" then [nfiles]
  else if String.eqb name "GroupLen" then [5] else if String.eqb name "GroupOffset" then [0] else if String.eqb name "GroupMinLen" then [0] else [].
Theorem C41_limit_refuted : exists cat little, consistent cat L2_group_tab /\ scalar cat "NTask" = 65536 /\
  ~ exists f, open_file little (file_bytes little (pieces_of cat L2_group_tab)) lgadget2_group_tab = (f, Ok tt) /\ order_is little little f.
Proof. exact @limit_final. Qed.
Print Assumptions C41_limit_refuted.

(** *** C42: catalogues and other formats *)
(** [opens p pieces little lf rest]: a file with these pieces, then [rest], opens without error;
    each array of the pieces is a dataset with its numbers, and there are no others; the byte
    order is right; and all bytes are used exactly if there is no [rest] *)
Theorem C42_opens : forall p nf l cat little lf rest, reads p nf l -> consistent cat l -> 1 <= scalar cat nf <= 65535 ->
  opens p (pieces_of cat l) little lf rest.
Proof. exact @catalogue_opens. Qed.
Print Assumptions C42_opens.
Theorem C42_gadget4 : forall id cat little lf rest, id_size id -> records_ok (G4_sub_tab id cat) -> scalar cat "Ngroups" < 2 ^ 31 -> scalar cat "Nsubgroups" < 2 ^ 31 ->
  opens (gadget4_sub_tab id) (G4_sub_tab id cat) little lf rest.
Proof. exact @gadget4_opens. Qed.
Print Assumptions C42_gadget4.
Theorem C42_lgadget2_snapshot : forall cat little lf rest, records_ok (L2_snapshot cat) -> scalar cat "first_hash_cell" < 2 ^ 31 -> scalar cat "last_hash_cell" < 2 ^ 31 ->
  opens lgadget2_snapshot (L2_snapshot cat) little lf rest.
Proof. exact @L2_snapshot_opens. Qed.
Print Assumptions C42_lgadget2_snapshot.
(** the readers of MPA merger trees do not look at the byte order *)
Theorem C42_mpa_native : forall p l cat little rest, reads_native p l -> consistent cat l -> opens p (pieces_of cat l) little little rest.
Proof. exact @native_opens. Qed.
Print Assumptions C42_mpa_native.
Theorem C42_mpa_foreign_refuted : exists cat little, consistent cat MPA_sub_desc /\ ~ opens mpa_sub_desc (pieces_of cat MPA_sub_desc) little (negb little) [].
Proof. exact @mpa_foreign_final. Qed.
Print Assumptions C42_mpa_foreign_refuted.
(** L-Gadget2 group ids files can not be opened: the byte order test looks for NFiles, which is
    called NTask *)
Theorem C42_group_ids_refuted : forall little content id, snd (open_file little content (lgadget2_group_ids id)) = Err EKey.
Proof. exact @group_ids_fails. Qed.
Print Assumptions C42_group_ids_refuted.
(** other sizes of ids or of floating point numbers are refused, whatever is in the file *)
Theorem C42_id_bytes : forall id, ~ id_size id ->
  (forall p, In p [lgadget2_sub_tab id; lgadget2_sub_ids id; lgadget3_sub_ids id; pgadget3_sub_ids id] -> forall little content, snd (open_file little content p) <> Ok tt) /\
  (forall so sh fl p, In p [lgadget3_sub_tab so sh id fl; pgadget3_group_ids id; pgadget3_group_tab id fl; pgadget3_sub_tab so false false id fl; gadget4_sub_tab id; mpa_tree_aux id] ->
   forall little content, snd (open_file little content p) = Err EValue).
Proof. exact @bad_id_refused. Qed.
Print Assumptions C42_id_bytes.
Theorem C42_float_bytes : forall id fl, id_size id -> ~ id_size fl -> forall so sh p, In p [lgadget3_sub_tab so sh id fl; pgadget3_group_tab id fl; pgadget3_sub_tab so false false id fl] ->
  forall little content, snd (open_file little content p) = Err EValue.
Proof. exact @bad_float_refused. Qed.
Print Assumptions C42_float_bytes.
(** and so are the options which are not implemented *)
Theorem C42_options : forall so bar snap id fl, bar = true \/ snap = true -> forall little content, snd (open_file little content (pgadget3_sub_tab so bar snap id fl)) = Err ERuntime.
Proof. exact @options_refused. Qed.
Print Assumptions C42_options.
Example sizes_other : ~ id_size 5. Proof. unfold id_size. lia. Qed.
Example C42_example : forall little lf, consistent (ex_tab 3) L2_group_tab /\ reads lgadget2_group_tab "NTask" L2_group_tab /\ 1 <= scalar (ex_tab 3) "NTask" <= 65535 /\
  let content := file_bytes lf (pieces_of (ex_tab 3) L2_group_tab) in
  zlen content = 28 /\ read_dataset little content (fst (open_file little content lgadget2_group_tab)) (nm "GroupLen") = Ok [5].
Proof.
  intros little lf. split; [|split; [constructor|]; split; [cbn; lia|]; destruct little, lf; vm_compute; split; reflexivity].
  split; [unfold pieces_of, L2_group_tab; cbn; repeat constructor; cbn; lia | repeat constructor; cbn; lia].
Qed.
