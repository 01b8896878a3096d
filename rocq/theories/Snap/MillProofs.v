(** Class Snapshot of subfind_lgadget2.py from the bytes of the files: proofs. *)
From Coq Require Import Ascii String.
From Verif Require Import Base.Prelude Base.ListLemmas Base.NdArray Binary.BinModel Binary.NameProofs Formats.ReaderModel Formats.FileSpec Formats.CatSpec Formats.CatFinal.
From Verif Require Import Multi.GroupCatModel Peano.PeanoModel Peano.PeanoCurve Peano.PeanoProofs Snap.ReadModel Snap.ReadSpec Snap.CellsProofs Snap.ReadFinal Snap.OrderedModel Snap.OrderedSpec Snap.OrderedProofs Snap.MillModel Snap.MillSpec.
From Coq Require Import ZifyBool ZifyNat.
Local Open Scope Z_scope.
Local Open Scope list_scope.

(** *** the size of the grid *)
Lemma grid_size_ok fuel nhash : forall b, 0 <= b -> nhash <= 8 ^ (b + Z.of_nat fuel) -> (forall c, 0 <= c < b -> 8 ^ c < nhash) ->
  exists bits, grid_size (S fuel) nhash (2 ^ b) b = Ok (2 ^ bits, bits) /\ b <= bits /\ nhash <= 8 ^ bits /\ forall c, 0 <= c < bits -> 8 ^ c < nhash.
Proof.
  assert (forall b, 0 <= b -> 2 ^ b * 2 ^ b * 2 ^ b = 8 ^ b) as C. { intros b Hb. change 8 with (2 ^ 3). rewrite <- Z.pow_mul_r, <- !Z.pow_add_r by lia. f_equal. lia. }
  induction fuel as [|fuel IH]; intros b Hb Hn Hl; cbn [grid_size]; rewrite C by exact Hb.
  - rewrite Z.add_0_r in Hn. replace (8 ^ b <? nhash) with false by lia. exists b. repeat split; auto; lia.
  - destruct (Z.ltb_spec (8 ^ b) nhash) as [H|H].
    + destruct (IH (b + 1)) as (bits & E & H1 & H2 & H3); [lia | now replace (b + 1 + Z.of_nat fuel) with (b + Z.of_nat (S fuel)) by lia | |].
      * intros c Hc. destruct (Z.eq_dec c b) as [->|]; [exact H | apply Hl; lia].
      * exists bits. split; [|repeat split; auto; lia]. rewrite <- E. cbn [grid_size]. rewrite Z.pow_add_r by lia. reflexivity.
    + exists b. repeat split; auto; lia.
Qed.

(** *** one file *)
Section One.
  Variables (little lf : bool) (cat : catalogue) (extra : list Z) (files : Z -> option (list Z)) (i : Z) (f : cellfile (list Z)) (nhash : Z).
  Hypothesis Hi : files i = Some (file_bytes lf (L2_snapshot cat) ++ extra).
  Hypothesis Hok : records_ok (L2_snapshot cat).
  Hypothesis Hc : holds_cells cat f.
  Hypothesis Hf : file_ok nhash f.
  Hypothesis Hn : nhash < 2 ^ 31.
  Let content := file_bytes lf (L2_snapshot cat) ++ extra.

  Lemma mill_opens : exists o, open_snapshot little files i = Ok (content, o) /\ reads_back little content (L2_snapshot cat) o.
  Proof using All.
    destruct Hc as (_ & _ & _ & _ & _ & C1 & C2 & _). destruct Hf as (F1 & F2 & F3). pose proof (zlen_nonneg (cf_cells f)).
    destruct (L2_snapshot_opens cat little lf extra Hok) as (o & E & R & _); [lia | lia |]. exists o. split; [|exact R]. unfold open_snapshot. rewrite Hi. fold content in E |- *. now rewrite E.
  Qed.
  Lemma in_header fd : In fd L2_snapshot_header -> In (attr_of cat fd) (L2_snapshot cat).
  Proof using. intro H. unfold L2_snapshot. cbv zeta. apply in_or_app. left. unfold record. right. apply in_or_app. left. now apply in_map. Qed.
  Lemma mill_attr o name fd : reads_back little content (L2_snapshot cat) o -> In fd L2_snapshot_header -> keys (nm (fd_name fd)) = keys (nm "Header") ++ [nm name] ->
    read_attr little content o (nm "Header") (nm name) = Ok (cat (fd_name fd)).
  Proof using.
    intros (_ & R & _) Hfd Hk. destruct (R (nm "Header") (nm name) _ _ _ _ (in_header fd Hfd) Hk) as (attrs & ds & gs & id & b & items & E1 & E2 & E3 & _ & _ & E4 & E5). unfold read_attr. rewrite E1. cbn [bind]. rewrite E2, E3, E4. cbn [bind]. now rewrite E5.
  Qed.
  Lemma mill_array o name size shape : reads_back little content (L2_snapshot cat) o -> In (plain_data cat name size shape) (L2_snapshot cat) ->
    array_of little content o name = Ok {| NdArray.shape := map Z.to_nat shape; data := cat name |}.
  Proof using.
    intros (R & _) Hin. destruct (R _ _ _ _ Hin) as (id & at_ & b & items & E1 & E2 & E3 & _ & E4 & E5). unfold array_of, lookup_array. change (nm name) with (list_ascii_of_string name). rewrite E1, E2, E4. cbn [bind]. now rewrite E3, E5.
  Qed.
  Lemma in_plain name size shape : In (plain_data cat name size shape) [plain_data cat "PartType1/Coordinates" 4 [nth 1 (cat "Header/NumPart_ThisFile"%string) 0; 3];
      plain_data cat "PartType1/Velocities" 4 [nth 1 (cat "Header/NumPart_ThisFile"%string) 0; 3]; plain_data cat "PartType1/ParticleIDs" 8 [nth 1 (cat "Header/NumPart_ThisFile"%string) 0];
      plain_data cat "first_hash_cell" 4 []; plain_data cat "last_hash_cell" 4 []; plain_data cat "blockid" 4 [scalar cat "last_hash_cell" - scalar cat "first_hash_cell" + 1]] -> In (plain_data cat name size shape) (L2_snapshot cat).
  Proof using.
    intro H. unfold L2_snapshot. cbv zeta. apply in_or_app. right. unfold record. cbn [app In] in *. intuition.
  Qed.
  Lemma concat_cut {A} (l : list (list A)) : Forall (fun r => zlen r = 3) l -> cut 3 (List.length l) (concat l) = l.
  Proof using.
    clear. induction l as [|r l IH]; intro H; [reflexivity|]. apply Forall_cons_iff in H. destruct H as [H1 H2]. cbn [List.length cut concat]. assert (List.length r = 3%nat) as L by (unfold zlen in H1; lia).
    rewrite firstn_app, L, Nat.sub_diag, firstn_O, app_nil_r, firstn_all2 by lia. rewrite skipn_app, L, Nat.sub_diag, skipn_O, skipn_all2 by lia. cbn [app]. now rewrite IH.
  Qed.
  Lemma cut_one {A} (l : list A) : cut 1 (List.length l) l = map (fun v => [v]) l.
  Proof using. clear. induction l as [|a l IH]; [reflexivity|]. cbn [List.length cut map firstn skipn]. f_equal. exact IH. Qed.
  Lemma starts_small cells : forall from, 0 <= from -> from + zlen (concat cells) < 2 ^ 31 -> map signed32 (@starts (list Z) from cells) = starts from cells.
  Proof using.
    clear. induction cells as [|c cells IH]; intros from H1 H2; [reflexivity|]. cbn [starts map concat] in *. rewrite zlen_app in H2. pose proof (zlen_nonneg c). pose proof (zlen_nonneg (concat cells)).
    f_equal; [|apply IH; lia]. unfold signed32. replace (2 ^ 31 <=? from) with false by lia. reflexivity.
  Qed.
  Lemma mill_hash_file : hash_file_of little files i = Ok (file_of f).
  Proof using All.
    destruct mill_opens as (o & E & R). unfold hash_file_of. rewrite E. cbn [bind]. pose proof Hc as (C1 & C2 & C3 & C4 & C5 & C6 & C7 & C8). pose proof Hf as (F1 & F2 & F3). pose proof (zlen_nonneg (cf_cells f)).
    rewrite (mill_array o "first_hash_cell" 4 [] R), (mill_array o "last_hash_cell" 4 [] R), (mill_array o "blockid" 4 [scalar cat "last_hash_cell" - scalar cat "first_hash_cell" + 1] R) by (apply in_plain; cbn [In]; tauto).
    rewrite (mill_array o "PartType1/Coordinates" 4 [nth 1 (cat "Header/NumPart_ThisFile"%string) 0; 3] R), (mill_array o "PartType1/Velocities" 4 [nth 1 (cat "Header/NumPart_ThisFile"%string) 0; 3] R) by (apply in_plain; cbn [In]; tauto).
    rewrite (mill_array o "PartType1/ParticleIDs" 8 [nth 1 (cat "Header/NumPart_ThisFile"%string) 0] R) by (apply in_plain; cbn [In]; tauto).
    rewrite (mill_attr o "NumPart_ThisFile" (six "Header/NumPart_ThisFile" 4) R) by (try (now left); reflexivity). cbn [bind data fd_name six]. unfold i32. fold (scalar cat "first_hash_cell"). fold (scalar cat "last_hash_cell"). rewrite C2, C6, C7, C8.
    rewrite starts_small by lia. unfold signed32 at 1 2. replace (2 ^ 31 <=? cf_first f) with false by lia. replace (2 ^ 31 <=? cf_first f + zlen (cf_cells f) - 1) with false by lia.
    unfold file_of. f_equal. f_equal.
    - rewrite (rows_cut _ (Z.to_nat (zlen (concat (cf_cells f)))) [3%nat]) by reflexivity. cbn [data nelem fold_right Nat.mul]. rewrite C3. unfold zlen. rewrite Nat2Z.id, <- (map_length (fun p : list Z * list Z * list Z => fst (fst p))). apply concat_cut. apply Forall_map. eapply Forall_impl; [|exact C1]. cbn. tauto.
    - rewrite (rows_cut _ (Z.to_nat (zlen (concat (cf_cells f)))) [3%nat]) by reflexivity. cbn [data nelem fold_right Nat.mul]. rewrite C4. unfold zlen. rewrite Nat2Z.id, <- (map_length (fun p : list Z * list Z * list Z => snd (fst p))). apply concat_cut. apply Forall_map. eapply Forall_impl; [|exact C1]. cbn. tauto.
    - rewrite (rows_cut _ (Z.to_nat (zlen (concat (cf_cells f)))) []) by reflexivity. cbn [data nelem fold_right Nat.mul]. rewrite C5. replace (Z.to_nat (zlen (concat (cf_cells f)))) with (List.length (cat "PartType1/ParticleIDs"%string)); [apply cut_one|].
      unfold zlen. rewrite Nat2Z.id, <- (map_length snd (concat (cf_cells f))), C5. now rewrite map_length.
  Qed.
End One.
