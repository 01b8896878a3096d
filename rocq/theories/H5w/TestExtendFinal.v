(** Proofs for TestExtendModel.v. *)
From Coq Require Import Ascii String.
From Verif Require Import Base.Prelude Text.StrModel H5w.H5wModel H5w.H5wSpec H5w.H5wCases H5w.TestExtendModel H5w.TestExtendSpec.
From Coq Require Import ZifyBool ZifyNat.
Local Open Scope Z_scope.
Local Open Scope list_scope.

Fixpoint all_from (n : nat) (a : Z) (P : Z -> Prop) : Prop := match n with O => True | S n' => P a /\ all_from n' (a + 1) P end.
Lemma all_from_ok n : forall a (P : Z -> Prop), all_from n a P -> forall i, a <= i < a + Z.of_nat n -> P i.
Proof. induction n as [|n IH]; intros a P H i Hi; [lia|]. destruct H as [H0 H]. destruct (Z.eq_dec i a) as [-> | N]; [exact H0|]. apply (IH (a + 1) P H). lia. Qed.
Lemma list_ok h name n f d : dataset_at h [lit name] d -> d_dims d = [n] -> zlen (d_data d) = n -> all_from (Z.to_nat n) 1 (fun i => elem [n] (d_data d) [i - 1] = Some (f i)) -> is_list h name n f.
Proof. intros D E L H. exists d. split; [exact D|]. split; [exact E|]. split; [exact L|]. intros i Hi. apply (all_from_ok _ _ _ H). lia. Qed.
Lemma table_ok h name n m f d : dataset_at h [lit name] d -> d_dims d = [n; m] -> zlen (d_data d) = n * m ->
  all_from (Z.to_nat n) 1 (fun i => all_from (Z.to_nat m) 1 (fun j => elem [n; m] (d_data d) [i - 1; j - 1] = Some (f i j))) -> is_table h name n m f.
Proof. intros D E L H. exists d. split; [exact D|]. split; [exact E|]. split; [exact L|]. intros i j Hi Hj. apply (all_from_ok _ _ _ (all_from_ok _ _ _ H i ltac:(lia))). lia. Qed.

Section Run.
  Variables (int real : Z -> elt) (old : list obj) (others : list (str * dfile)).
  Definition left_in_file : list obj := match play no_cv (test_extend int real) [] (before old others) with Some (_, s) => match disk s with (_, f) :: _ => heap f | [] => [] end | None => [] end.
  Lemma runs : exists t s, play no_cv (test_extend int real) [] (before old others) = Some (t, s) /\ disk s = (lit "./test2.hdf5", {| heap := left_in_file; writable := true |}) :: others /\ nopen s = 0.
  Proof. unfold left_in_file. set (r := play _ _ _ _). vm_compute in r. subst r. eexists _, _. repeat split. Qed.
  Ltac dataset k := eexists k, _; split; [eapply leads_on; [reflexivity | reflexivity | cbn; auto 10 | apply leads_here] | split; [reflexivity | reflexivity]].
  Ltac values := vm_compute; repeat split.
  Ltac by_list k := eapply list_ok; [dataset k | reflexivity | reflexivity | values].
  Ltac by_table k := eapply table_ok; [dataset k | reflexivity | reflexivity | values].
  Lemma contents : let h := left_in_file in
    is_list h "idata" 100 (fun i => int (if between 50 i 59 then -1 else 10001 * i)) /\
    is_table h "rdata1" 10 5 (fun i j => real (if between 8 i 10 && between 4 j 5 then -1000 else i + 1000 * j)) /\
    is_table h "rdata2" 10 5 (fun i j => real (i + 1000 * j)) /\
    is_table h "rdata3" 10 10 (fun i j => if between 6 j 10 then real 10 else nothing 4) /\
    is_table h "strdata" 4 8 (fun i j => if between 2 i 4 && between 4 j 8 then [100; 101; 102] else if between 1 i 3 && between 1 j 5 then [97; 98; 99] else nothing 3) /\
    is_table h "Array2D" 10 5 (fun i j => real (if (i =? 4) && (j =? 4) then 3 else if i =? 3 then 2 else if between 1 i 8 && (j =? 1) then 1 else 0)) /\
    is_list h "itest" 5 (fun i => if i =? 1 then int 1 else nothing 4).
  Proof.
    set (h := left_in_file). vm_compute in h. cbv zeta. subst h.
    split; [by_list 1%nat|]. split; [by_table 2%nat|]. split; [by_table 3%nat|]. split; [by_table 4%nat|]. split; [by_table 5%nat|]. split; [by_table 6%nat | by_list 7%nat].
  Qed.
End Run.
Lemma test_extend_final : forall (int real : Z -> elt) (old : list obj) (others : list (str * dfile)), exists t s h,
  play no_cv (test_extend int real) [] (before old others) = Some (t, s) /\ disk s = (lit "./test2.hdf5", {| heap := h; writable := true |}) :: others /\ nopen s = 0 /\
  is_list h "idata" 100 (fun i => int (if between 50 i 59 then -1 else 10001 * i)) /\
  is_table h "rdata1" 10 5 (fun i j => real (if between 8 i 10 && between 4 j 5 then -1000 else i + 1000 * j)) /\
  is_table h "rdata2" 10 5 (fun i j => real (i + 1000 * j)) /\
  is_table h "rdata3" 10 10 (fun i j => if between 6 j 10 then real 10 else nothing 4) /\
  is_table h "strdata" 4 8 (fun i j => if between 2 i 4 && between 4 j 8 then [100; 101; 102] else if between 1 i 3 && between 1 j 5 then [97; 98; 99] else nothing 3) /\
  is_table h "Array2D" 10 5 (fun i j => real (if (i =? 4) && (j =? 4) then 3 else if i =? 3 then 2 else if between 1 i 8 && (j =? 1) then 1 else 0)) /\
  is_list h "itest" 5 (fun i => if i =? 1 then int 1 else nothing 4).
Proof.
  intros int real old others. destruct (runs int real old others) as (t & s & E & D & N). pose proof (contents int real old others) as C. cbv zeta in C.  generalize dependent (left_in_file int real old others). intros h D C.
  exists t, s, h. split; [exact E|]. split; [exact D|]. split; [exact N|]. exact C.
Qed.
