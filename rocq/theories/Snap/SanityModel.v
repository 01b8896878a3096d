(** Model of the integer parts of the sanity_check() methods of the catalogue
    readers: formats/subfind_lgadget2.py, formats/subfind_lgadget3.py and
    formats/subfind_pgadget3.py.

    SanityCheckFailedException and the plain Exception raised by the checks on
    floating point columns are both [ERuntime]. The arrays are the contents of
    the named datasets; numpy int32 arithmetic wraps ([wrap32]). The outcome of
    the tests on floating point columns is an argument ([floats_ok]). *)
From Verif Require Import Base.Prelude Base.Order Peano.PeanoModel Util.RangesModel Psort.UniqueModel.

(** one python [if <test>: raise SanityCheckFailedException] *)
Definition refuse (b : bool) : res unit := check (negb b) ERuntime.

(** np.any / builtin any over an elementwise test *)
Definition any {A} (f : A -> bool) (l : list A) : bool := existsb f l.
Definition any2 (f : Z -> Z -> bool) (l m : list Z) : bool := existsb (fun p => f (fst p) (snd p)) (combine l m).

(** builtin sum() over an int32 array: each addition is done in int64 by
    numpy 1 and in int32, with wrap-around, by numpy 2 *)
Definition py_sum (np2 : bool) (l : list Z) : Z :=
  fold_left (fun acc x => if np2 then wrap32 (acc + x) else wrap64 (acc + x)) l 0.

(** subfind_lgadget2.py lines 53-70, GroupTabFile.sanity_check *)
Definition lg2_group_tab_check (np2 : bool) (nids : Z) (grouplen groupoffset : list Z) : res unit :=
  let ngroups := zlen grouplen in
  (* lines 60-61 *)
  do _ <- refuse (negb (py_sum np2 grouplen =? nids));
  (* lines 63-64 *)
  do _ <- refuse (any (fun o => o <? 0) groupoffset || any (fun o => nids <=? o) groupoffset);
  (* lines 66-68 *)
  if ngroups >? 1 then
    refuse (any2 (fun a b => negb (a =? b)) (skipn 1 groupoffset)
              (zipwith (fun o l => wrap32 (o + l)) (removelast groupoffset) (removelast grouplen)))
  else Ok tt.

(** subfind_lgadget2.py lines 259-279, SubIDsFile.sanity_check (and the same text
    at lines 105-125, GroupIDsFile). For uint32 ids numpy's shift by 34 gives 0,
    as it does here. *)
Definition lg2_ids_check (ids : list Z) : res unit :=
  do _ <- refuse (any (fun i => i <? 0) ids);
  let key := map (fun i => Z.shiftr i 34) ids in
  let num := zipwith (fun i k => i - Z.shiftl k 34) ids key in
  do _ <- refuse (any (fun k => k <? 0) key || any (fun k => 256 ^ 3 <=? k) key);
  do _ <- refuse (any (fun i => i <? 0) num || any (fun i => i >? 2160 ^ 3) num);
  refuse (zlen (filter (fun i => i =? 0) num) >? 1).

(** subfind_lgadget2.py lines 186-224, SubTabFile.sanity_check *)
Definition lg2_sub_tab_check (floats_ok : bool) (nids : Z) (nsubperhalo firstsub sublen suboffset subparent : list Z) : res unit :=
  let ngroups := zlen nsubperhalo in
  let nsubgroups := zlen sublen in
  (* np.sum of an int32 array is accumulated in int64 *)
  do _ <- refuse (negb (wrap64 (sumZ nsubperhalo) =? nsubgroups));
  let ind := map (fun n => n >? 0) nsubperhalo in
  do _ <- refuse (any (fun f => f <? 0) (np_mask firstsub ind) || any (fun f => nsubgroups <=? f) (np_mask firstsub ind));
  do _ <- refuse (any (fun o => o <? 0) suboffset || any2 (fun o l => wrap32 (o + l) >? nids) suboffset sublen);
  do parent <- np_repeat (zseq 0 (Z.to_nat ngroups)) nsubperhalo;
  do _ <- refuse (any2 (fun a b => negb (a =? b)) subparent parent);
  refuse (negb floats_ok).

(** subfind_lgadget3.py lines 101-161 and subfind_pgadget3.py lines 238-307,
    SubTabFile.sanity_check. The offset arrays are int32 except GroupOffset of the
    P-Gadget3 reader, which is uint32: adding the int32 lengths to that gives
    int64, so there [wg] is the identity, while for L-Gadget3 it is [wrap32].
    [bytes_ok] is all_bytes_used(). *)
Definition g3_sub_tab_check (wg : Z -> Z) (bytes_ok floats_ok : bool) (totnids totngroups totnsubgroups : Z)
    (grouplen groupoffset firstsub nsubs sublen suboffset subgrnr : list Z) : res unit :=
  do _ <- refuse (negb bytes_ok);
  do _ <- refuse ((totnids <? 0) || (totngroups <? 0) || (totnsubgroups <? 0));
  do _ <- refuse (any (fun l => l <? 0) grouplen);
  do _ <- (if totnids <? 2 ^ 31 then
             refuse (any (fun o => o <? 0) groupoffset || any2 (fun o l => wg (o + l) >? totnids) groupoffset grouplen)
           else Ok tt);
  do _ <- refuse (any (fun n => n <? 0) nsubs);
  let ind := map (fun n => n >? 0) nsubs in
  do _ <- refuse (any (fun f => f <? 0) (np_mask firstsub ind)
                  || any2 (fun f n => wrap32 (f + n) >? totnsubgroups) (np_mask firstsub ind) (np_mask nsubs ind));
  do _ <- refuse (any (fun l => l <? 0) sublen);
  do _ <- (if totnids <? 2 ^ 31 then
             refuse (any (fun o => o <? 0) suboffset || any2 (fun o l => wrap32 (o + l) >? totnids) suboffset sublen)
           else Ok tt);
  do _ <- refuse (negb floats_ok);
  do _ <- refuse (any (fun g => g <? 0) subgrnr || any (fun g => totngroups <=? g) subgrnr);
  if zlen subgrnr >? 1 then refuse (any2 Z.ltb (skipn 1 subgrnr) (removelast subgrnr)) else Ok tt.

(** subfind_pgadget3.py lines 53-63 (GroupIDsFile) and 342-352 (SubIDsFile) and
    subfind_lgadget3.py lines 207-217 (SubIDsFile): no duplicate ids *)
Definition g3_ids_check (bytes_ok : bool) (ids : list Z) : res unit :=
  do _ <- refuse (negb bytes_ok);
  refuse (any (fun c => negb (c =? 1)) (map snd (np_unique ZOrd ids))).

(** subfind_pgadget3.py lines 112-136, GroupTabFile.sanity_check. grouplentype has
    six columns. GroupOffset is uint32 and GroupLen int32, so the sums are int64.
    [mass_ok] is the outcome of the floating point test on the masses. *)
Definition p3_group_tab_check (bytes_ok mass_ok : bool) (nids : Z) (grouplen groupoffset : list Z) (grouplentype : list (list Z)) : res unit :=
  do _ <- refuse (negb bytes_ok);
  do _ <- refuse (any2 (fun a b => negb (a =? b)) (map sumZ grouplentype) grouplen);
  do _ <- (if nids >? 1 then
             refuse (any2 (fun a b => negb (a =? b)) (skipn 1 groupoffset) (zipwith Z.add (removelast groupoffset) (removelast grouplen)))
           else Ok tt);
  refuse (negb mass_ok).
