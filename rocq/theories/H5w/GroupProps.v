(** C90: creating groups with the HDF5 wrapper for Fortran. *)
From Coq Require Import Ascii String.
From Verif Require Import Base.Prelude Text.StrModel H5w.H5wModel H5w.H5wSpec H5w.H5wTable H5w.H5wFiles H5w.H5wCases H5w.H5wRead H5w.H5wView H5w.H5wGroup.
Local Open Scope Z_scope.
Local Open Scope list_scope.

(** Whatever a program has done before, hdf5_create_group adds the groups its argument names, those
    on the way included, as empty groups where there is nothing yet. Everything else in the file and
    all other files stay as they are. The program is ended exactly if one of the names on the way
    belongs to a dataset, and the groups before that one have then been added. The path has at most
    10 groups and 255 characters. *)
Theorem C90_group : forall cv s0 t s h f fl n p, fresh s0 -> sound_files s0 -> tree_files s0 -> history cv s0 t s -> (forall c r, In (c, r) t -> sound_call c) -> current t h = Some (f, false) ->
  assoc f (disk s) = Some fl -> names n p -> (List.length (spell p) <= 255)%nat -> (List.length p <= 10)%nat ->
  match run cv (CGroup h n) s with
  | Go v s' => v = RNone /\ (forall q d l, prefix q p -> ~ holds (heap fl) q (ADset d) l) /\ others_same f s s' /\
      exists fl', assoc f (disk s') = Some fl' /\ writable fl' = writable fl /\ groups_made p (heap fl) (heap fl')
  | Stop s' => exists q c r d l, p = q ++ c :: r /\ holds (heap fl) (q ++ [c]) (ADset d) l /\ others_same f s s' /\
      exists fl', assoc f (disk s') = Some fl' /\ writable fl' = writable fl /\ groups_made q (heap fl) (heap fl')
  | Wild => False
  end.
Proof. exact c90_group. Qed.
Print Assumptions C90_group.
(** In a file with a dataset "x", "a/b" makes both groups and "a/c" the second only. "a/d/x" is no
    dataset, but "x/y" is refused. *)
Example C90_group_case (cs := [COpen (lit "old.h5") None; CGroup 1 (lit "/a/b  "); CGroup 1 (lit "a/c"); CGroup 1 (lit "a/d/x")]) :
  works cs = true /\ current (trace cs) 1 = Some (lit "old.h5", false) /\
  match assoc (lit "old.h5") (disk (after cs)) with
  | Some fl => map (fun o => match o_node o with Group l => map (fun e => string_of_list_ascii (fst e)) l | Dset _ => [] end) (heap fl) =
      [["x"; "a"]%string; []; ["b"; "c"; "d"]%string; []; []; ["x"]%string; []]
  | None => False
  end /\ ends (run no_cv (CGroup 1 (lit "x/y")) (after cs)) = 1 /\ ends (run no_cv (CGroup 1 (lit "a/b")) (after cs)) = 0.
Proof. vm_compute. repeat split. Qed.
(** the files the examples start from are sound trees *)
Example C90_start : sound_files ex_start /\ tree_files ex_start.
Proof.
  assert (forall f d, assoc f (disk ex_start) = Some d -> heap d = heap ex_old) as K.
  { intros f d. cbn [disk ex_start assoc]. repeat (destruct (str_eqb _ _); [intros [= <-]; reflexivity|]). discriminate. }
  assert (sound (heap ex_old)) as S by (apply soundb_ok; vm_compute; reflexivity).
  split; intros f d E; rewrite (K f d E); [exact S|]. apply tree_walk; [exact S|].
  assert (forall p a, walk (heap ex_old) 0 p = Some a -> p = match a with O => [] | _ => [lit "x"] end) as U.
  { intros p a. destruct p as [|c p]; cbn [walk heap ex_old links_of nth_error o_node assoc]; [intros [= <-]; reflexivity|]. destruct (str_eqb c (lit "x")) eqn:X; [|intro C; discriminate C]. apply str_eqb_eq in X. subst c. destruct p; [intros [= <-]; reflexivity|]. intro C. discriminate C. }
  intros p q a A B. now rewrite (U _ _ A), (U _ _ B).
Qed.

(** With 11 groups in the path the routine writes outside its table. *)
Theorem C90_deep_refuted : exists cs n p, works cs = true /\ current (trace cs) 1 = Some (lit "old.h5", false) /\ names n p /\ (List.length p = 11)%nat /\
  run no_cv (CGroup 1 n) (after cs) = Wild.
Proof.
  exists [COpen (lit "old.h5") None], (lit "a/a/a/a/a/a/a/a/a/a/a"), (repeat (lit "a") 11). split; [vm_compute; reflexivity|]. split; [vm_compute; reflexivity|].
  split; [|split; vm_compute; reflexivity]. split; [discriminate|]. split; [|exists 0%nat; left; reflexivity]. apply Forall_forall. intros x Hx. apply repeat_spec in Hx. subst x.
  repeat constructor; vm_compute; try discriminate. intuition discriminate.
Qed.
Print Assumptions C90_deep_refuted.
(** A path with two slashes in a row, which HDF5 takes for one, ends the program. *)
Theorem C90_slashes_refuted : exists cs, works cs = true /\ current (trace cs) 1 = Some (lit "old.h5", false) /\
  ends (run no_cv (CGroup 1 (lit "a/b")) (after cs)) = 0 /\ ends (run no_cv (CGroup 1 (lit "a//b")) (after cs)) = 1.
Proof. exists [COpen (lit "old.h5") None]. vm_compute. repeat split. Qed.
Print Assumptions C90_slashes_refuted.
(** A name of 300 characters is cut, and a name of 256 characters without a slash in front makes the
    routine write outside its variable. *)
Theorem C90_long_refuted : exists cs, works cs = true /\ current (trace cs) 1 = Some (lit "old.h5", false) /\
  match run no_cv (CGroup 1 (slash :: repeat "a"%char 300)) (after cs) with
  | Go _ s' => exists fl l, assoc (lit "old.h5") (disk s') = Some fl /\ holds (heap fl) [repeat "a"%char 255] AGroup l /\ nothing_at (heap fl) [repeat "a"%char 300]
  | _ => False
  end /\ run no_cv (CGroup 1 (repeat "a"%char 256)) (after cs) = Wild.
Proof.
  exists [COpen (lit "old.h5") None]. split; [vm_compute; reflexivity|]. split; [vm_compute; reflexivity|]. split; [|vm_compute; reflexivity].
  set (o := run no_cv _ _). vm_compute in o. subst o. cbv beta iota. do 2 eexists. split; [vm_compute; reflexivity|]. split; [apply see_holds; vm_compute; reflexivity|]. apply see_nothing; vm_compute; reflexivity.
Qed.
Print Assumptions C90_long_refuted.
