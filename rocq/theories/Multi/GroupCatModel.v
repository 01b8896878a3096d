(** Model of the GroupCatalogue classes: formats/subfind_pgadget3.py lines 356-404 and
    formats/subfind_gadget4.py lines 110-145, with the constructors of the files
    (Formats/ReaderModel.v) and read_multi (Multi/MultiModel.v).

    Simplified: a file is given by its number, [files i] being its contents if it exists;
    the names made from basedir and isnap are not modelled (they are formatted twice, so
    that a percent sign in basedir goes wrong). Arrays hold bit patterns, and all arrays
    under one name have numbers of the same type. *)
From Coq Require Import Ascii String.
From Verif Require Import Base.Prelude Base.Order Base.NdArray Binary.BinModel Formats.ReaderModel Multi.MultiModel.
Local Open Scope Z_scope.

(** names are compared with ==; the order is of no importance *)
Fixpoint str_code (s : str) : Z := match s with [] => 0 | c :: s' => 257 * str_code s' + (Z.of_N (N_of_ascii c) + 1) end.
Lemma str_code_inj : forall s t, str_code s = str_code t -> s = t.
Proof.
  assert (forall c, 0 <= Z.of_N (N_of_ascii c) < 256) as R. { intro c. pose proof (N_ascii_bounded c). lia. }
  assert (forall s, 0 <= str_code s) as P. { induction s as [|c s IH]; cbn [str_code]; [lia|]. specialize (R c). lia. }
  induction s as [|c s IH]; intros [|d t] E; cbn [str_code] in E; [reflexivity | | |].
  - pose proof (P t). pose proof (R d). lia.
  - pose proof (P s). pose proof (R c). lia.
  - pose proof (R c). pose proof (R d). assert (Z.of_N (N_of_ascii c) = Z.of_N (N_of_ascii d) /\ str_code s = str_code t) as [E1 E2] by lia.
    f_equal; [|now apply IH]. apply N2Z.inj in E1. rewrite <- (ascii_N_embedding c), <- (ascii_N_embedding d). now rewrite E1.
Qed.
Definition str_ord : TOrd str.
Proof.
  refine {| leb := fun a b => str_code a <=? str_code b |}.
  - intro a. apply Z.leb_refl.
  - intros a b H1 H2. apply str_code_inj. apply Z.leb_le in H1, H2. lia.
  - intros a b c H1 H2. apply Z.leb_le in H1, H2. apply Z.leb_le. lia.
  - intros a b. destruct (Z.leb_spec (str_code a) (str_code b)); [now left | right; apply Z.leb_le; lia].
Defined.

Section Catalogue.
  Variable little : bool.
  (** the contents of the file with number i; None if there is no such file *)
  Variable files : Z -> option (list Z).

  (** name in f, and f[name][...]: Mapping.__contains__ tries f[name] (read_binary.py
      lines 117-142) and catches KeyError *)
  Definition lookup_array (content : list Z) (f : file) (name : str) : option (res (nd Z)) :=
    match g_getitem (f_tree f) name with
    | Err EKey => None
    | Err e => Some (Err e)
    | Ok (EGroup _) => Some (Err EType)
    | Ok (EDset id _) =>
        Some match nth_error (f_blocks f) id with
             | Some b => do items <- getitem little content b None;
                         Ok {| shape := map Z.to_nat (b_shape b); data := numbers little (b_dtype b) items |}
             | None => Err EFuel (* can not happen *)
             end
    end.
  (** SubTabFile(fname % {"i" : i}, ...) *)
  Definition open_nr (p : prog) (i : Z) : res (str -> option (res (nd Z))) :=
    match files i with
    | None => Err EIO
    | Some content => match open_file little content p with (f, Ok _) => Ok (lookup_array content f) | (_, Err e) => Err e end
    end.

  (** pgadget3 lines 384-401, gadget4 lines 128-138; [nfname] is NTask or NFiles. The
      dictionary and the files opened by read_multi, in order *)
  Definition group_catalogue (p : prog) (nfname : string) (datasets : list str) : res (list (str * @cell Z) * list Z) :=
    do f <- open_nr p 0;
    match f (nm nfname) with
    | None => Err EKey
    | Some r => do a <- r;
                let nfiles := i32 (data a) in
                read_multi str_ord (open_nr p) (zseq 0 (Z.to_nat nfiles)) datasets (Some 0)
    end.
End Catalogue.

(** pgadget3 lines 371-381 *)
Definition p3_datasets (so_vel_dispersions : bool) : list string :=
  (["GroupLen"; "GroupOffset"; "GroupMass"; "GroupPos"; "Halo_M_Mean200"; "Halo_R_Mean200"; "Halo_M_Crit200"; "Halo_R_Crit200";
   "Halo_M_TopHat200"; "Halo_R_TopHat200"; "ContaminationLen"; "ContaminationMass"; "Nsubs"; "FirstSub"; "SubLen"; "SubOffset"; "SubParent";
   "SubMass"; "SubPos"; "SubVel"; "SubCofM"; "SubSpin"; "SubVelDisp"; "SubVmax"; "SubRVmax"; "SubHalfMass"; "SubMostBoundID"; "SubGrNr"]%string ++
  (if so_vel_dispersions then ["VelDisp_Mean200"; "VelDisp_Crit200"; "VelDisp_TopHat200"]%string else []))%list.
(** gadget4 lines 118-127 *)
Definition g4_datasets : list string :=
  ["GroupLen"; "GroupMass"; "GroupPos"; "GroupVel"; "GroupLenType"; "GroupMassType"; "Halo_M_Mean200"; "Halo_R_Mean200"; "Halo_M_Crit200"; "Halo_R_Crit200";
   "Halo_M_TopHat200"; "Halo_R_TopHat200"; "Nsubs"; "FirstSub"; "SubLen"; "SubMass"; "SubPos"; "SubVel"; "SubLenType"; "SubMassType"; "SubCofM"; "SubSpin";
   "SubVelDisp"; "SubVmax"; "SubRVmax"; "SubHalfMassRad"; "SubHalfMassRadType"; "SubMassInRad"; "SubMassInRadType"; "SubMostBoundID"; "SubGrNr"; "SubParent"]%string.
(** datasets=None *)
Definition names_or (default : list string) (datasets : option (list string)) : list str :=
  map nm (match datasets with None => default | Some l => l end).
(** GroupCatalogue of subfind_pgadget3.py (with SO_BAR_INFO and WRITE_SUB_IN_SNAP_FORMAT
    off: the constructor refuses them) and of subfind_gadget4.py *)
Definition p3_group_catalogue (little : bool) (files : Z -> option (list Z)) (datasets : option (list string)) (so_vel_dispersions : bool) (id_bytes float_bytes : Z) :=
  group_catalogue little files (pgadget3_sub_tab so_vel_dispersions false false id_bytes float_bytes) "NTask" (names_or (p3_datasets so_vel_dispersions) datasets).
Definition g4_group_catalogue (little : bool) (files : Z -> option (list Z)) (id_bytes : Z) (datasets : option (list string)) :=
  group_catalogue little files (gadget4_sub_tab id_bytes) "NFiles" (names_or g4_datasets datasets).
