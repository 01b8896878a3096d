(** C74: the GroupCatalogue classes, from the bytes of the files. *)
From Coq Require Import Ascii String.
From Verif Require Import Base.Prelude Base.NdArray Binary.BinModel Formats.ReaderModel Formats.FileSpec Formats.CatSpec.
From Verif Require Import Multi.MultiModel Multi.GroupCatModel Multi.GroupCatSpec Multi.GroupCatFinal.
Local Open Scope Z_scope.
Local Open Scope list_scope.

(** P-Gadget3: if the first file says that there are as many files as there are, the result has the
    requested names in order (any arrays with one row per group or subhalo), each with the rows
    of all the files one after another; the files are opened in order of their number *)
Theorem C74_pgadget3 : forall little files cs so id fl, id_size id -> id_size fl ->
  Forall (fun c => consistent c (P3_sub_tab so id fl) /\ 1 <= scalar c "NTask" <= 65535) cs ->
  option_map (fun c => scalar c "NTask") (hd_error cs) = Some (zlen cs) ->
  stored files (fun c => pieces_of c (P3_sub_tab so id fl)) cs ->
  forall datasets, let names := match datasets with None => p3_datasets so | Some l => l end in
  NoDup names -> (forall n, In n names -> In (named (P3_sub_tab so id fl) n) (P3_sub_tab so id fl) /\ is_column (named (P3_sub_tab so id fl) n)) ->
  p3_group_catalogue little files datasets so id fl =
  Ok (map (fun n => (nm n, CArr (whole_array cs (named (P3_sub_tab so id fl) n)))) names, zseq 0 (List.length cs)).
Proof. exact @p3_catalogue. Qed.
Print Assumptions C74_pgadget3.
(** the default list of names is of this kind *)
Theorem C74_pgadget3_default : forall so id fl, NoDup (p3_datasets so) /\
  forall n, In n (p3_datasets so) -> In (named (P3_sub_tab so id fl) n) (P3_sub_tab so id fl) /\ is_column (named (P3_sub_tab so id fl) n).
Proof. exact @p3_default_ok. Qed.
Print Assumptions C74_pgadget3_default.
(** ... and it has all the arrays of groups and subhalos *)
Theorem C74_pgadget3_complete : forall so id fl fd, In fd (P3_sub_tab so id fl) -> is_column fd -> In (fd_name fd) (p3_datasets so).
Proof. exact @p3_default_complete. Qed.
Print Assumptions C74_pgadget3_complete.

(** Gadget-4, where files without groups (or without subhalos) do not have the arrays: the same, if
    at least one file has a row of each array *)
Theorem C74_gadget4 : forall id fl, id_size id -> forall little files cs, Forall (g4_ok id fl) cs ->
  option_map (fun c => scalar c "NFiles") (hd_error cs) = Some (zlen cs) -> zlen cs < 2 ^ 31 ->
  stored files (G4_sub_tab id) cs ->
  forall datasets, let names := match datasets with None => g4_datasets | Some l => l end in
  NoDup names -> (forall n, In n names -> In (named (G4_groups fl ++ G4_subs id fl) n) (G4_groups fl ++ G4_subs id fl)) ->
  (forall n, In n names -> 0 < sumZ (map (rows_in (named (G4_groups fl ++ G4_subs id fl) n)) cs)) ->
  g4_group_catalogue little files id datasets =
  Ok (map (fun n => (nm n, CArr (whole_array cs (named (G4_groups fl ++ G4_subs id fl) n)))) names, zseq 0 (List.length cs)).
Proof. exact @g4_catalogue. Qed.
Print Assumptions C74_gadget4.
Theorem C74_gadget4_default : forall id fl, NoDup g4_datasets /\
  forall n, In n g4_datasets -> In (named (G4_groups fl ++ G4_subs id fl) n) (G4_groups fl ++ G4_subs id fl).
Proof. exact @g4_default_ok. Qed.
Print Assumptions C74_gadget4_default.
Theorem C74_gadget4_complete : forall id fl fd, In fd (G4_groups fl ++ G4_subs id fl) -> In (fd_name fd) g4_datasets.
Proof. exact @g4_default_complete. Qed.
Print Assumptions C74_gadget4_complete.
(** finding: a correct catalogue without any subhalo (or any group) can not be read: ValueError *)
Theorem C74_gadget4_empty_refuted : forall id fl, id_size id -> forall little files cs, Forall (g4_ok id fl) cs ->
  option_map (fun c => scalar c "NFiles") (hd_error cs) = Some (zlen cs) -> zlen cs < 2 ^ 31 ->
  stored files (G4_sub_tab id) cs ->
  forall datasets, let names := match datasets with None => g4_datasets | Some l => l end in
  NoDup names -> (forall n, In n names -> In (named (G4_groups fl ++ G4_subs id fl) n) (G4_groups fl ++ G4_subs id fl)) ->
  (exists n, In n names /\ sumZ (map (rows_in (named (G4_groups fl ++ G4_subs id fl) n)) cs) = 0) ->
  g4_group_catalogue little files id datasets = Err EValue.
Proof. exact @g4_empty. Qed.
Print Assumptions C74_gadget4_empty_refuted.

(** a catalogue file with [ng] groups and [ns] subhalos and numbers from [base] on *)
Definition ex_file (l : list field) (header : list (string * Z)) (base : Z) : catalogue := fun name =>
  match List.find (fun e => String.eqb (fst e) name) header with
  | Some (_, v) => [v]
  | None =>
    match List.find (fun fd => String.eqb (fd_name fd) name) l with
    | Some fd => zseq base (fold_left Nat.mul (map (fun d => Z.to_nat (match d with Fixed n => n | Of count => match List.find (fun e => String.eqb (fst e) count) header with Some (_, v) => v | None => 0 end end)) (fd_dims fd)) 1%nat)
    | None => []
    end
  end.
Definition ex_p3 (ng ns base : Z) : catalogue :=
  ex_file (P3_sub_tab true 8 4) [("Ngroups", ng); ("Nsubgroups", ns); ("NTask", 3)]%string base.
Definition ex_p3s : list catalogue := [ex_p3 1 2 100; ex_p3 0 0 200; ex_p3 2 1 300].
Definition ex_files (pieces : catalogue -> list piece) (cs : list catalogue) (i : Z) : option (list Z) :=
  if i <? 0 then None else option_map (fun c => file_bytes (i =? 1) (pieces c)) (nth_error cs (Z.to_nat i)).
Lemma ex_stored pieces cs : stored (ex_files pieces cs) pieces cs.
Proof. intros i c E. exists (Z.of_nat i =? 1), []. unfold ex_files. replace (Z.of_nat i <? 0) with false by (symmetry; apply Z.ltb_ge; lia). rewrite Nat2Z.id, E. now rewrite app_nil_r. Qed.
Ltac each := apply Forall_forall; let p := fresh "p" in let Hp := fresh "Hp" in intros p Hp; vm_compute in Hp; repeat (destruct Hp as [<-|Hp]; [cbn [piece_ok]; repeat split; try lia; try reflexivity; repeat constructor; lia|]); contradiction.
Ltac counts := apply Forall_forall; let p := fresh "p" in let Hp := fresh "Hp" in intros p Hp; cbn in Hp; repeat (destruct Hp as [<-|Hp]; [repeat constructor; vm_compute; congruence|]); contradiction.
Example C74_pgadget3_ex : Forall (fun c => consistent c (P3_sub_tab true 8 4) /\ 1 <= scalar c "NTask" <= 65535) ex_p3s /\
  option_map (fun c => scalar c "NTask") (hd_error ex_p3s) = Some (zlen ex_p3s) /\
  stored (ex_files (fun c => pieces_of c (P3_sub_tab true 8 4)) ex_p3s) (fun c => pieces_of c (P3_sub_tab true 8 4)) ex_p3s /\
  p3_group_catalogue true (ex_files (fun c => pieces_of c (P3_sub_tab true 8 4)) ex_p3s) (Some ["SubMostBoundID"; "GroupPos"]%string) true 8 4 =
  Ok ([(nm "SubMostBoundID", CArr {| shape := [3%nat]; data := [100; 101; 300] |});
       (nm "GroupPos", CArr {| shape := [3%nat; 3%nat]; data := [100; 101; 102; 300; 301; 302; 303; 304; 305] |})], [0; 1; 2]).
Proof.
  split; [|split; [reflexivity|]; split; [apply ex_stored | vm_compute; reflexivity]].
  repeat constructor; try (vm_compute; congruence); try each; counts.
Qed.
Definition ex_g4 (ng ns base : Z) : catalogue :=
  ex_file (G4_header ++ G4_groups 4 ++ G4_subs 8 4) [("Ngroups", ng); ("Nsubgroups", ns); ("NFiles", 3); ("flag_dp", 0)]%string base.
Definition ex_g4s : list catalogue := [ex_g4 1 2 100; ex_g4 0 0 200; ex_g4 2 0 300].
Lemma ex_g4_ok : Forall (g4_ok 8 4) ex_g4s.
Proof. unfold ex_g4s. repeat match goal with |- Forall _ (_ :: _) => constructor | |- Forall _ [] => constructor end; (split; [reflexivity|]; split; split; [each | counts | each | each]). Qed.
Example C74_gadget4_ex : Forall (g4_ok 8 4) ex_g4s /\ option_map (fun c => scalar c "NFiles") (hd_error ex_g4s) = Some (zlen ex_g4s) /\
  stored (ex_files (G4_sub_tab 8) ex_g4s) (G4_sub_tab 8) ex_g4s /\
  g4_group_catalogue true (ex_files (G4_sub_tab 8) ex_g4s) 8 (Some ["SubPos"; "GroupLen"]%string) =
  Ok ([(nm "SubPos", CArr {| shape := [2%nat; 3%nat]; data := [100; 101; 102; 103; 104; 105] |}); (nm "GroupLen", CArr {| shape := [3%nat]; data := [100; 300; 301] |})], [0; 1; 2]) /\
  g4_group_catalogue true (ex_files (G4_sub_tab 8) [ex_file (G4_header ++ G4_groups 4 ++ G4_subs 8 4) [("Ngroups", 1); ("Nsubgroups", 0); ("NFiles", 1); ("flag_dp", 0)]%string 0]) 8 None = Err EValue.
Proof. split; [exact ex_g4_ok|]. split; [reflexivity|]. split; [apply ex_stored|]. split; vm_compute; reflexivity. Qed.
