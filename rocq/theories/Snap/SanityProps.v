(** C55, C59-C62: what the sanity_check methods of the catalogue readers establish. *)
From Verif Require Import Base.Prelude Peano.PeanoModel.
From Verif Require Import Snap.SanityModel Snap.SanitySpec Snap.SanityProofs Snap.SubTabProofs.
Local Open Scope Z_scope.

(** C55: an accepted L-Gadget2 group table with no negative length has
    consecutive groups that own every id of [start, start + Nids) exactly once
    and nothing else; this is 0..Nids-1 exactly if the first offset is 0 *)
Theorem C55_tiles : forall np2 nids len off,
  length off = length len -> int32 nids -> Forall int32 len -> Forall (fun x => 0 <= x) len ->
  lg2_group_tab_check np2 nids len off = Ok tt ->
  exists start, 0 <= start /\ sumZ len = nids /\ consecutive start len off (start + nids) /\ partitions len off start (start + nids) /\
    (0 < nids -> (partitions len off 0 nids <-> nth 0 off 0 = 0)).
Proof. exact group_tab_partition. Qed.
Print Assumptions C55_tiles.
Example C55_tiles_ex : lg2_group_tab_check true 10 [4; 3; 3] [0; 4; 7] = Ok tt /\ lg2_group_tab_check false 10 [4; 3; 3] [0; 4; 7] = Ok tt.
Proof. split; vm_compute; reflexivity. Qed.

Theorem C55_accepts : forall np2 nids len off,
  nids < 2 ^ 31 -> Forall (fun x => 0 < x) len -> consecutive 0 len off nids ->
  lg2_group_tab_check np2 nids len off = Ok tt.
Proof. exact group_tab_accepts. Qed.
Print Assumptions C55_accepts.
Example C55_accepts_ex : consecutive 0 [4; 3; 3] [0; 4; 7] 10. Proof. cbn. lia. Qed.

(** the first offset is never compared with 0: an accepted table whose ids are
    1..5 of a list of 5 *)
Theorem C55_start_refuted : exists nids len off,
  lg2_group_tab_check true nids len off = Ok tt /\ lg2_group_tab_check false nids len off = Ok tt /\
  Forall (fun x => 0 <= x) len /\ length off = length len /\
  owns len off 1 nids /\ (forall k, ~ owns len off k 0).
Proof.
  exists 5, [3; 2], [1; 4]. split; [vm_compute; reflexivity|]. split; [vm_compute; reflexivity|]. split; [repeat constructor; lia|].
  split; [reflexivity|]. split; [unfold owns; cbn; lia|]. intros [|[|k]] [H1 H2]; cbn in *; lia.
Qed.
Print Assumptions C55_start_refuted.

(** negative lengths are not looked for: an accepted table with a group of
    length -1 and another that reaches beyond the last id *)
Theorem C55_negative_refuted : exists nids len off,
  lg2_group_tab_check true nids len off = Ok tt /\ lg2_group_tab_check false nids len off = Ok tt /\
  nth 0 len 0 < 0 /\ owns len off 1 nids.
Proof.
  exists 2, [-1; 3], [1; 0]. split; [vm_compute; reflexivity|]. split; [vm_compute; reflexivity|]. split; [cbn; lia|]. unfold owns; cbn; lia.
Qed.
Print Assumptions C55_negative_refuted.

(** a correct table whose last group is empty is refused *)
Theorem C55_empty_last_refuted : exists nids len off,
  consecutive 0 len off nids /\ partitions len off 0 nids /\
  lg2_group_tab_check true nids len off = Err ERuntime /\ lg2_group_tab_check false nids len off = Err ERuntime.
Proof.
  exists 3, [3; 0], [0; 3]. split; [cbn; lia|]. split; [apply consecutive_partitions; [repeat constructor; lia|cbn; lia]|].
  split; vm_compute; reflexivity.
Qed.
Print Assumptions C55_empty_last_refuted.

(** C59: L-Gadget2 subhalo tables *)
Theorem C59_accepted : forall floats nids nsub firstsub sublen suboffset parent,
  length firstsub = length nsub -> length suboffset = length sublen -> length parent = length sublen ->
  (- 2 ^ 63 <= sumZ nsub < 2 ^ 63) -> Forall int32 suboffset -> Forall (fun l => 0 <= l < 2 ^ 31) sublen ->
  lg2_sub_tab_check floats nids nsub firstsub sublen suboffset parent = Ok tt ->
  Forall (fun n => 0 <= n) nsub /\ parents_ok nsub parent /\ sumZ nsub = zlen sublen /\
  (forall k, (k < length nsub)%nat -> 0 < nth k nsub 0 -> 0 <= nth k firstsub 0 < zlen sublen) /\
  (forall k, (k < length sublen)%nat ->
     inside (nth k suboffset 0) (nth k sublen 0) nids \/ 2 ^ 31 <= nth k suboffset 0 + nth k sublen 0) /\ floats = true.
Proof. exact lg2_sub_tab_accepted. Qed.
Print Assumptions C59_accepted.
Example C59_accepted_ex : lg2_sub_tab_check true 20 [2; 0; 1] [0; 0; 2] [5; 4; 7] [0; 5; 12] [0; 0; 2] = Ok tt.
Proof. vm_compute. reflexivity. Qed.

(** FirstSubOfHalo is only range checked: accepted although the first subhalo of
    group 1 is recorded as one that belongs to group 0 *)
Theorem C59_firstsub_refuted : exists nids nsub firstsub sublen suboffset parent,
  lg2_sub_tab_check true nids nsub firstsub sublen suboffset parent = Ok tt /\
  nth 1 nsub 0 = 1 /\ nth (Z.to_nat (nth 1 firstsub 0)) parent 0 = 0.
Proof. exists 20, [2; 1], [0; 1], [5; 4; 7], [0; 5; 12], [0; 0; 1]. split; [vm_compute; reflexivity|]. split; reflexivity. Qed.
Print Assumptions C59_firstsub_refuted.

(** the sum offset + length is formed in int32, so a range that ends beyond 2^31
    is accepted *)
Theorem C59_overflow_refuted : exists nids nsub firstsub sublen suboffset parent,
  lg2_sub_tab_check true nids nsub firstsub sublen suboffset parent = Ok tt /\
  Forall int32 sublen /\ Forall int32 suboffset /\ nids < nth 0 suboffset 0 /\ 0 < nth 0 sublen 0.
Proof.
  exists 20, [1], [0], [10], [2147483640], [0]. split; [vm_compute; reflexivity|].
  repeat split; try (repeat constructor; unfold int32; lia); cbn; lia.
Qed.
Print Assumptions C59_overflow_refuted.

(** C60: L-Gadget3 and P-Gadget3 subhalo tables. [wg] is the arithmetic used for
    GroupOffset + GroupLen: int32 for L-Gadget3, int64 for P-Gadget3. *)
Theorem C60_accepted : forall wg totnids totngroups totnsub grouplen groupoffset firstsub nsubs sublen suboffset subgrnr,
  length groupoffset = length grouplen -> length firstsub = length nsubs -> length suboffset = length sublen ->
  wg = wrap32 \/ wg = (fun x => x) -> forall bytes floats,
  Forall int32 grouplen -> Forall (fun o => - 2 ^ 31 <= o < 2 ^ 32) groupoffset -> (wg = wrap32 -> Forall int32 groupoffset) ->
  Forall int32 firstsub -> Forall int32 nsubs -> Forall int32 sublen -> Forall int32 suboffset ->
  g3_sub_tab_check wg bytes floats totnids totngroups totnsub grouplen groupoffset firstsub nsubs sublen suboffset subgrnr = Ok tt ->
  bytes = true /\ 0 <= totnids /\ 0 <= totngroups /\ 0 <= totnsub /\
  (forall k, (k < length grouplen)%nat -> 0 <= nth k grouplen 0 /\
     (totnids < 2 ^ 31 -> inside (nth k groupoffset 0) (nth k grouplen 0) totnids \/
        wg = wrap32 /\ inside_mod (nth k groupoffset 0) (nth k grouplen 0) totnids)) /\
  (forall k, (k < length nsubs)%nat -> 0 <= nth k nsubs 0 /\ (0 < nth k nsubs 0 -> inside_mod (nth k firstsub 0) (nth k nsubs 0) totnsub)) /\
  (forall k, (k < length sublen)%nat -> 0 <= nth k sublen 0 /\ (totnids < 2 ^ 31 -> inside_mod (nth k suboffset 0) (nth k sublen 0) totnids)) /\
  StronglySorted Z.le subgrnr /\ Forall (fun g => 0 <= g < totngroups) subgrnr /\ floats = true.
Proof. exact g3_accepted. Qed.
Print Assumptions C60_accepted.
Example C60_accepted_ex : g3_sub_tab_check wrap32 true true 20 2 3 [12; 8] [0; 12] [0; 2] [2; 1] [5; 4; 7] [0; 5; 12] [0; 0; 1] = Ok tt.
Proof. vm_compute. reflexivity. Qed.

Theorem C60_accepts : forall wg totnids totngroups totnsub grouplen groupoffset firstsub nsubs sublen suboffset subgrnr,
  length groupoffset = length grouplen -> length firstsub = length nsubs -> length suboffset = length sublen ->
  wg = wrap32 \/ wg = (fun x => x) ->
  0 <= totnids -> 0 <= totngroups -> 0 <= totnsub < 2 ^ 31 ->
  (forall k, (k < length grouplen)%nat -> 0 <= nth k grouplen 0 /\ (totnids < 2 ^ 31 -> inside (nth k groupoffset 0) (nth k grouplen 0) totnids)) ->
  (forall k, (k < length nsubs)%nat -> 0 <= nth k nsubs 0 /\ (0 < nth k nsubs 0 -> inside (nth k firstsub 0) (nth k nsubs 0) totnsub)) ->
  (forall k, (k < length sublen)%nat -> 0 <= nth k sublen 0 /\ (totnids < 2 ^ 31 -> inside (nth k suboffset 0) (nth k sublen 0) totnids)) ->
  StronglySorted Z.le subgrnr -> Forall (fun g => 0 <= g < totngroups) subgrnr ->
  g3_sub_tab_check wg true true totnids totngroups totnsub grouplen groupoffset firstsub nsubs sublen suboffset subgrnr = Ok tt.
Proof. exact g3_accepts. Qed.
Print Assumptions C60_accepts.

(** int32 overflow of offset + length hides an out of range subhalo *)
Theorem C60_overflow_refuted : exists totnids grouplen groupoffset sublen suboffset,
  g3_sub_tab_check wrap32 true true totnids 1 1 grouplen groupoffset [0] [1] sublen suboffset [0] = Ok tt /\
  Forall int32 grouplen /\ Forall int32 groupoffset /\ Forall int32 sublen /\ Forall int32 suboffset /\
  totnids < nth 0 groupoffset 0 /\ 0 < nth 0 grouplen 0 /\ totnids < nth 0 suboffset 0 /\ 0 < nth 0 sublen 0.
Proof.
  exists 1000, [10], [2147483640], [10], [2147483640]. split; [vm_compute; reflexivity|].
  repeat split; try (repeat constructor; unfold int32; lia); cbn; lia.
Qed.
Print Assumptions C60_overflow_refuted.

(** C61: id lists *)
Theorem C61_gadget3_ids : forall bytes ids, g3_ids_check bytes ids = Ok tt <-> bytes = true /\ NoDup ids.
Proof. exact g3_ids_iff. Qed.
Print Assumptions C61_gadget3_ids.
Example C61_gadget3_ids_ex : g3_ids_check true [7; 3; 9; 1] = Ok tt /\ g3_ids_check true [7; 3; 7; 1] = Err ERuntime.
Proof. split; vm_compute; reflexivity. Qed.

Theorem C61_lgadget2_ids : forall ids, lg2_ids_check ids = Ok tt <->
  Forall (fun i => 0 <= i < 2 ^ 58 /\ i mod 2 ^ 34 <= 2160 ^ 3) ids /\ zlen (filter (fun i => i mod 2 ^ 34 =? 0) ids) <= 1.
Proof. exact lg2_ids_iff. Qed.
Print Assumptions C61_lgadget2_ids.
Example C61_lgadget2_ids_ex : lg2_ids_check [7; 5 * 2 ^ 34 + 12; 0] = Ok tt /\ lg2_ids_check [2 ^ 58] = Err ERuntime /\ lg2_ids_check [0; 2 ^ 34] = Err ERuntime.
Proof. split; [|split]; vm_compute; reflexivity. Qed.

(** C62: P-Gadget3 group tables *)
Theorem C62_accepted : forall bytes mass nids len off lt,
  length off = length len -> length lt = length len ->
  (p3_group_tab_check bytes mass nids len off lt = Ok tt <->
   bytes = true /\ mass = true /\ map sumZ lt = len /\ (1 < nids -> exists start, consecutive start len off (start + sumZ len))).
Proof. exact p3_group_tab_iff. Qed.
Print Assumptions C62_accepted.
Example C62_accepted_ex : p3_group_tab_check true true 10 [4; 6] [100; 104] [[1; 3; 0; 0; 0; 0]; [0; 6; 0; 0; 0; 0]] = Ok tt.
Proof. vm_compute. reflexivity. Qed.
