(** C76: the interface of MultiFile: the set of files, several datasets at once, groups,
    attributes, the form of the results, and writing. *)
From Coq Require Import Ascii String.
From Verif.Base Require Import Prelude.
From Verif.Phdf5 Require Import CollModel MultiSpec ApiModel ApiSpec ApiFinal ApiWrite ApiBack.
Local Open Scope Z_scope.
Local Open Scope list_scope.

(** the set of files: a list of names, *)
Theorem C76_file_list : forall A V int_of_data int_of_attr substitute_file_nr (fs : store A V) P l at_ ds fi,
  (0 < P)%nat -> l <> [] ->
  init int_of_data int_of_attr substitute_file_nr fs P (Names l) at_ ds fi = Ok (l, zseq 0 (length l)).
Proof. exact @init_list. Qed.
Print Assumptions C76_file_list.
(** a pattern with indexes, *)
Theorem C76_file_indexes : forall A V int_of_data int_of_attr substitute_file_nr (fs : store A V) P s at_ ds idx l,
  (0 < P)%nat -> idx <> [] -> Forall2 (fun i n => substitute_file_nr s i = Ok n) idx l ->
  init int_of_data int_of_attr substitute_file_nr fs P (Format s) at_ ds (Some idx) = Ok (l, idx).
Proof. exact @init_format. Qed.
Print Assumptions C76_file_indexes.
(** or a pattern and a number in the first file: in an attribute, else in a dataset *)
Theorem C76_file_number : forall A V int_of_data int_of_attr substitute_file_nr (fs : store A V) P s at_ ds n l name0 f,
  (0 < P)%nat -> 0 < n -> substitute_file_nr s 0 = Ok name0 -> fs name0 = Some f ->
  match at_, ds with
  | Some (obj, a), _ => exists gp nd v ats, group_at gp (Some obj) /\ f gp = Some nd /\ (nd = NGroup ats \/ exists d, nd = NData d ats) /\
      NoDup (map fst ats) /\ In (a, v) ats /\ int_of_attr v = Ok n
  | None, Some name => exists gp d ats, group_at gp (Some name) /\ f gp = Some (NData d ats) /\ int_of_data d = Ok n
  | None, None => False
  end ->
  Forall2 (fun i x => substitute_file_nr s i = Ok x) (zseq 0 (Z.to_nat n)) l ->
  init int_of_data int_of_attr substitute_file_nr fs P (Format s) at_ ds None = Ok (l, zseq 0 (Z.to_nat n)).
Proof. exact @init_counted. Qed.
Print Assumptions C76_file_number.

(** read: each of the names is read from the group in all files that have it, and given
    back in the form asked for, with the attributes of a file that has it *)
Theorem C76_read : forall A V (junk : A) itemsize native buffer (fs : store A V) P fnames files idx gp group,
  (0 < P)%nat -> fnames <> [] -> length idx = length fnames -> Forall2 (fun n f => fs n = Some f) fnames files -> group_at gp group ->
  forall datasets cont dt dims,
  (forall n, In n (name_list datasets) -> component n /\ holds files gp n (cont n) /\ fits itemsize buffer P fnames (dt n) (dims n) (cont n)) ->
  forall read_attributes unpack return_file_nr, nr_sensible datasets unpack return_file_nr ->
  exists (g : string -> list (option (array A V) * option (list Z))) out,
    (forall n, In n (name_list datasets) -> distributed (cont n) idx P (native (dt n)) (dims n) read_attributes (g n)) /\
    read junk itemsize native buffer fs P fnames idx datasets group return_file_nr read_attributes unpack = Ok out /\ length out = P /\
    forall r v w, nth_error out r = Some (v, w) ->
      gives datasets unpack (fun n => fst (nth r (g n) (None, None))) v /\
      match return_file_nr, w with
      | None, None => True
      | Some rn, Some w => gives_nr datasets unpack rn (fun n => snd (nth r (g n) (None, None))) w
      | _, _ => False
      end.
Proof. exact @read_whole. Qed.
Print Assumptions C76_read.
(** the file numbers of one dataset cannot be asked for under another name *)
Theorem C76_file_nr_missing : forall A V (junk : A) itemsize native buffer (fs : store A V) P fnames files idx gp group,
  (0 < P)%nat -> fnames <> [] -> length idx = length fnames -> Forall2 (fun n f => fs n = Some f) fnames files -> group_at gp group ->
  forall datasets cont dt dims,
  (forall n, In n (name_list datasets) -> component n /\ holds files gp n (cont n) /\ fits itemsize buffer P fnames (dt n) (dims n) (cont n)) ->
  forall read_attributes rn n, datasets = One n -> ~ In n rn ->
  read junk itemsize native buffer fs P fnames idx datasets group (Some rn) read_attributes false = Err EKey.
Proof. exact @read_nr_missing. Qed.
Print Assumptions C76_file_nr_missing.

(** write: datasets that were read are written to other files (or other groups of the same
    files) with the layout of the input; nothing else changes *)
Theorem C76_write : forall A V (junk : A) itemsize native buffer substitute_file_nr fuel (fs : store A V) P fnames files idx gp group,
  (0 < P)%nat -> fnames <> [] -> length idx = length fnames -> NoDup idx -> Forall2 (fun n f => fs n = Some f) fnames files -> group_at gp group ->
  forall l cont dt dims,
  (forall n, In n l -> component n /\ holds files gp n (cont n) /\ fits itemsize buffer P fnames (dt n) (dims n) (cont n) /\
     ((length fnames < P)%nat -> 1 <= itemsize (native (dt n)) * prodZ (dims n) <= buffer) /\
     (exists o, In (Some o) (cont n)) /\ (length (all_rows (dsets (cont n))) <= fuel)%nat) ->
  forall n0 c0, component n0 -> holds files gp n0 c0 ->
  (forall n, In n l -> map (fun o => length (rows_of o)) (dsets (cont n)) = map (fun o => length (rows_of o)) (dsets c0)) ->
  forall fn onames m gp' group' at_ wanted,
  match fn with Format s => Forall2 (fun i n => substitute_file_nr s i = Ok n) idx onames | Names o => o = onames /\ length onames = length idx end ->
  NoDup onames -> NoDup l -> group_at gp' group' -> (forall n, In n l -> attrs_given at_ n (wanted n)) ->
  (forall n, In n onames -> exists f, base_file m (fs n) = Some f /\ room f gp' l) ->
  forall read_attributes,
  exists out epf fs',
    read junk itemsize native buffer fs P fnames idx (Many l) group None read_attributes false = Ok out /\
    get_elements_per_file fs P fnames idx n0 group = Ok epf /\
    write junk itemsize buffer substitute_file_nr fuel fs P idx (map (fun n => (n, picked out n)) l) epf fn m group' at_ = Ok fs' /\
    (forall n, ~ In n onames -> fs' n = fs n) /\
    forall i o, nth_error onames i = Some o -> exists f f', base_file m (fs o) = Some f /\ fs' o = Some f' /\
      written f f' gp' (map (fun n => (n, ({| d_dtype := native (dt n); d_dims := dims n; d_rows := rows_of (nth i (dsets (cont n)) None) |}, wanted n))) l).
Proof. exact @write_whole. Qed.
Print Assumptions C76_write.
(** and what was written is read back by any number of ranks *)
Theorem C76_read_back : forall A V (junk : A) itemsize native buffer (fs : store A V) P onames idx gp group l ds wanted dt dims,
  (0 < P)%nat -> onames <> [] -> length idx = length onames -> group_at gp group ->
  (forall n, In n l -> component n /\ (forall i, d_dtype (ds n i) = dt n /\ d_dims (ds n i) = dims n) /\
     ((length onames < P)%nat -> 1 <= itemsize (dt n) * prodZ (dims n) <= buffer)) ->
  (forall i o, nth_error onames i = Some o -> exists f f', fs o = Some f' /\ written f f' gp (map (fun n => (n, (ds n i, wanted n))) l)) ->
  forall read_attributes,
  exists out, read junk itemsize native buffer fs P onames idx (Many l) group None read_attributes false = Ok out /\ length out = P /\
    forall n, In n l ->
      concat (map rows_of (picked out n)) = concat (map (fun i => d_rows (ds n i)) (seq 0 (length onames))) /\
      (forall o, In o (picked out n) -> exists d, o = Some d /\ d_dtype d = native (dt n) /\ d_dims d = dims n) /\
      (read_attributes = true -> forall a, In a (picked_attrs out n) -> a = Some (wanted n)).
Proof. exact @read_back. Qed.
Print Assumptions C76_read_back.

(** *** a set of three files; the second lacks the group *)
Definition vec (l : list Z) : dset Z := {| d_dtype := 8; d_dims := [3]; d_rows := l |}.
Definition ex_file (n : Z) (a b : list Z) : h5file Z Z := fun p =>
  match p with
  | [] => Some (NGroup [])
  | [x] => if String.eqb x "Header" then Some (NGroup [("NumFiles"%string, 3)]) else if String.eqb x "PartType1" then Some (NGroup []) else None
  | [x; y] => if String.eqb x "PartType1" then
                if String.eqb y "Pos" then Some (NData (vec a) [("unit"%string, n)]) else if String.eqb y "Vel" then Some (NData (vec b) []) else None
              else None
  | _ => None
  end.
Definition ex_store : store Z Z := fun s =>
  if String.eqb s "snap.0" then Some (ex_file 10 [1; 2; 3] [11; 12; 13]) else if String.eqb s "snap.1" then Some empty_file
  else if String.eqb s "snap.2" then Some (ex_file 12 [4; 5] [14; 15]) else None.
Definition ex_subst (s : string) (i : Z) : res string :=
  Ok (s ++ match i with 0 => "0" | 1 => "1" | _ => "2" end)%string.
Definition ex_names : list string := ["snap.0"; "snap.1"; "snap.2"]%string.
Definition ex_read P := read (-1) (fun x => x) (fun x => x) 50 ex_store P ex_names [0; 1; 2].
Definition arr (l : list Z) (a : option Z) : option (array Z Z) :=
  Some {| a_data := vec l; a_attrs := option_map (fun u => [("unit"%string, u)]) a |}.
Example C76_init_case : init (fun _ => Err EType) (fun v => Ok v) ex_subst ex_store 2 (Format "snap.") (Some ("Header"%string, "NumFiles"%string)) None None = Ok (ex_names, [0; 1; 2]).
Proof. vm_compute. reflexivity. Qed.
(** two ranks; the whole dict, the attributes, the file numbers of one of the names *)
Example C76_read_case : ex_read 2 (Many ["Pos"; "Vel"]%string) (Some "PartType1"%string) (Some ["Pos"%string]) true false =
  Ok [(VDict [("Pos"%string, arr [1; 2; 3] (Some 10)); ("Vel"%string, Some {| a_data := vec [11; 12; 13]; a_attrs := Some [] |})], Some (VDict [("Pos"%string, Some [0; 0; 0])]));
      (VDict [("Pos"%string, arr [4; 5] (Some 12)); ("Vel"%string, Some {| a_data := vec [14; 15]; a_attrs := Some [] |})], Some (VDict [("Pos"%string, Some [2; 2])]))].
Proof. vm_compute. reflexivity. Qed.
(** four ranks; one dataset. The rank of the empty file has the attributes of the first file *)
Example C76_single_case : ex_read 4 (One "Pos"%string) (Some "PartType1"%string) (Some ["Pos"%string]) true false =
  Ok [(VOne (arr [1; 2] (Some 10)), Some (VOne (Some [0; 0]))); (VOne (arr [3] (Some 10)), Some (VOne (Some [0])));
      (VOne (arr [] (Some 10)), Some (VOne (Some []))); (VOne (arr [4; 5] (Some 12)), Some (VOne (Some [2; 2])))].
Proof. vm_compute. reflexivity. Qed.
Example C76_unpack_case : ex_read 1 (Many ["Vel"; "Pos"; "None"]%string) (Some "/PartType1"%string) None false true =
  Ok [(VList [Some {| a_data := vec [11; 12; 13; 14; 15]; a_attrs := None |}; arr [1; 2; 3; 4; 5] None; None], None)].
Proof. vm_compute. reflexivity. Qed.
(** written to another group of the same files: the files are read back by four ranks *)
Example C76_write_case : exists out epf fs',
  ex_read 2 (Many ["Pos"; "Vel"]%string) (Some "PartType1"%string) None false false = Ok out /\
  get_elements_per_file ex_store 2 ex_names [0; 1; 2] "Pos" (Some "PartType1"%string) = Ok epf /\
  write (-1) (fun x => x) 50 ex_subst 10 ex_store 2 [0; 1; 2] (map (fun n => (n, picked out n)) ["Pos"; "Vel"]%string) epf (Format "snap.") Append (Some "Copy/PartType1"%string)
    (Some [("Vel"%string, [("unit"%string, 7)])]) = Ok fs' /\
  read (-1) (fun x => x) (fun x => x) 50 fs' 1 ex_names [0; 1; 2] (One "Vel"%string) (Some "Copy/PartType1"%string) None true false = Ok [(VOne (arr [11; 12; 13; 14; 15] (Some 7)), None)] /\
  read (-1) (fun x => x) (fun x => x) 50 fs' 4 ex_names [0; 1; 2] (One "Vel"%string) (Some "PartType1"%string) None false false =
  ex_read 4 (One "Vel"%string) (Some "PartType1"%string) None false false.
Proof. eexists. eexists. eexists. split; [vm_compute; reflexivity|]. split; [vm_compute; reflexivity|]. split; [vm_compute; reflexivity|]. split; vm_compute; reflexivity. Qed.

(** the keys of the dict of file numbers depend on the number of ranks *)
Theorem C76_file_nr_keys_refuted : exists (fs : store Z Z) fnames idx datasets group rn o1 o2,
  read (-1) (fun x => x) (fun x => x) 50 fs 1 fnames idx datasets group (Some rn) false false = Ok [o1] /\ option_map (fun v => match v with VDict m => map fst m | _ => [] end) (snd o1) = Some ["Pos"; "Vel"]%string /\
  read (-1) (fun x => x) (fun x => x) 50 fs 2 fnames idx datasets group (Some rn) false false = Ok [o2; o2] /\ option_map (fun v => match v with VDict m => map fst m | _ => [] end) (snd o2) = Some ["Pos"%string].
Proof.
  exists (fun s => Some (ex_file 1 [] [])), ["snap.0"%string], [0], (Many ["Pos"%string]), (Some "PartType1"%string), ["Pos"; "Vel"]%string. eexists. eexists. repeat split; vm_compute; reflexivity.
Qed.
Print Assumptions C76_file_nr_keys_refuted.
(** a dataset of one row which is shorter than the counts say is repeated to fill the file,
    without an error *)
Theorem C76_short_refuted : exists epf fs' f d a,
  get_elements_per_file ex_store 1 ["snap.0"%string] [0] "Pos" (Some "PartType1"%string) = Ok epf /\
  write (-1) (fun x => x) 50 ex_subst 10 ex_store 1 [0] [("Mass"%string, [Some (vec [9])])] epf (Names ["out"%string]) W None None = Ok fs' /\
  fs' "out"%string = Some f /\ f ["Mass"%string] = Some (NData d a) /\ d_rows d = [9; 9; 9].
Proof. do 5 eexists. split; [vm_compute; reflexivity|]. split; [vm_compute; reflexivity|]. split; [vm_compute; reflexivity|]. split; vm_compute; reflexivity. Qed.
Print Assumptions C76_short_refuted.
