From Coq Require Import String.
From Verif Require Import Base.Prelude Base.ListLemmas Peano.PeanoModel Util.RangesModel Index.IndexModel.
From Verif Require Import Snap.ReadModel Snap.ReadSpec Snap.CellsProofs Snap.RangeProofs Snap.FofProofs Snap.FofFinal.
From Coq Require Import ZifyBool ZifyNat.
Local Open Scope Z_scope.

(** ** read_cells *)
Lemma cells_members {A} nhash (fs : list (cellfile A)) calls keys : 0 <= nhash -> Forall (file_ok nhash) fs ->
  Forall (fun k => - nhash <= k < nhash) keys -> some_cell (wanted nhash keys) fs ->
  exists pos vel ids sel,
    snd (read_cells nhash (map file_of fs) (cells_history nhash (map file_of fs) calls) keys) = Ok (pos, vel, ids) /\
    pos = map (fun p => fst (fst p)) sel /\ vel = map (fun p => snd (fst p)) sel /\ ids = map snd sel /\
    forall p, In p sel <-> exists f k c, In f fs /\ nth_error (cf_cells f) k = Some c /\ wanted nhash keys (cf_first f + Z.of_nat k) /\ In p c.
Proof.
  intros Hn Hf Hk Hs. destruct (read_cells_final nhash fs calls keys Hn Hf) as [H _]. destruct (proj1 (H Hk) Hs) as (sel & P & E).
  do 3 eexists. exists sel. split; [exact E|]. split; [reflexivity|]. split; [reflexivity|]. split; [reflexivity|]. now apply picks_files_In.
Qed.
Lemma cells_exact {A} nhash (fs : list (cellfile A)) calls keys : 0 <= nhash -> Forall (file_ok nhash) fs ->
  Forall (fun k => - nhash <= k < nhash) keys -> some_cell (wanted nhash keys) fs ->
  exists sel, picks_files (wanted nhash keys) fs sel /\
    snd (read_cells nhash (map file_of fs) (cells_history nhash (map file_of fs) calls) keys) =
    Ok (map (fun p => fst (fst p)) sel, map (fun p => snd (fst p)) sel, map snd sel).
Proof. intros Hn Hf Hk Hs. destruct (read_cells_final nhash fs calls keys Hn Hf) as [H _]. exact (proj1 (H Hk) Hs). Qed.
Lemma cells_none {A} nhash (fs : list (cellfile A)) calls keys : 0 <= nhash -> Forall (file_ok nhash) fs ->
  Forall (fun k => - nhash <= k < nhash) keys -> ~ some_cell (wanted nhash keys) fs ->
  snd (read_cells nhash (map file_of fs) (cells_history nhash (map file_of fs) calls) keys) = Err EValue.
Proof. intros Hn Hf Hk Hs. destruct (read_cells_final nhash fs calls keys Hn Hf) as [H _]. exact (proj2 (H Hk) Hs). Qed.
Lemma cells_bad {A} nhash (fs : list (cellfile A)) calls keys : 0 <= nhash -> Forall (file_ok nhash) fs ->
  ~ Forall (fun k => - nhash <= k < nhash) keys ->
  snd (read_cells nhash (map file_of fs) (cells_history nhash (map file_of fs) calls) keys) = Err EIndex.
Proof. intros Hn Hf Hk. destruct (read_cells_final nhash fs calls keys Hn Hf) as [_ H]. exact (H Hk). Qed.

(** ** read_particle_range *)
Section Range.
  Context {A : Type}.
  Variables (all names : list string) (xs : list (@fileinfo A)) (calls : list ((Z -> Z) * Z * Z * list string)).
  Hypothesis Hx : Forall (info_ok all) xs.
  Hypothesis Hcalls : forall c, In c calls -> NoDup (snd c) /\ incl (snd c) all.
  Hypothesis Hnd : NoDup names.
  Hypothesis Hincl : incl names all.
  Definition rr_cache := range_history (map i_file xs) calls.
  Lemma rr_cache_ok : Forall2 count_ok xs rr_cache. Proof. now apply (range_history_ok all). Qed.
  Lemma rr_names : Forall (info_ok names) xs. Proof. now apply (info_sub all). Qed.

  Lemma rr_exact offset count : 0 <= offset -> 0 < count -> offset + count <= total xs ->
    snd (read_particle_range (fun x => x) (map i_file xs) (range_history (map i_file xs) calls) offset count names) =
    Ok (map (fun nm => (nm, zslice (whole (map i_rows xs) nm) offset (offset + count))) names).
  Proof.
    intros H1 H2 H3.
    destruct (range_ok names Hnd offset (offset + count - 1) (fun x => x) xs _ offset count rr_names rr_cache_ok eq_refl eq_refl) as (_ & H & _).
    unfold rr_cache in H. replace (offset + count - 1 + 1) with (offset + count) in H by lia. apply H. lia.
  Qed.
  Lemma rr_nothing offset count : names <> [] -> (forall k, offset <= k < offset + count -> ~ 0 <= k < total xs) ->
    snd (read_particle_range (fun x => x) (map i_file xs) (range_history (map i_file xs) calls) offset count names) = Err EValue.
  Proof.
    intros H1 H2.
    destruct (range_ok names Hnd offset (offset + count - 1) (fun x => x) xs _ offset count rr_names rr_cache_ok eq_refl eq_refl) as (_ & _ & H).
    apply H; [|exact H1]. intro L. apply (H2 (Z.max 0 offset)); lia.
  Qed.
  Lemma rr_empty offset : names <> [] ->
    snd (read_particle_range (fun x => x) (map i_file xs) (range_history (map i_file xs) calls) offset 0 names) = Err EValue.
  Proof. intro H. apply rr_nothing; [exact H|]. lia. Qed.

  Variables (cat_offset cat_len : list Z) (g : Z).
  Hypothesis Hg : 0 <= g < zlen cat_offset.
  Hypothesis Hl : zlen cat_len = zlen cat_offset.
  Definition goff := nth (Z.to_nat g) cat_offset 0.
  Definition glen := nth (Z.to_nat g) cat_len 0.
  Lemma grp wr : read_group_range wr (map i_file xs) rr_cache cat_offset cat_len g names = read_particle_range wr (map i_file xs) rr_cache goff glen names.
  Proof. unfold read_group_range. rewrite (py_nth_ok cat_offset g 0) by exact Hg. cbn [bind]. rewrite (py_nth_ok cat_len g 0) by lia. reflexivity. Qed.

  Lemma rr_fof : 0 <= nth (Z.to_nat g) cat_offset 0 -> 0 < nth (Z.to_nat g) cat_len 0 ->
    nth (Z.to_nat g) cat_offset 0 + nth (Z.to_nat g) cat_len 0 <= total xs ->
    snd (p3_read_fof_group (map i_file xs) (range_history (map i_file xs) calls) cat_offset cat_len g names) =
    Ok (map (fun nm => (nm, zslice (whole (map i_rows xs) nm) (nth (Z.to_nat g) cat_offset 0)
                              (nth (Z.to_nat g) cat_offset 0 + nth (Z.to_nat g) cat_len 0))) names).
  Proof. intros. unfold p3_read_fof_group. fold rr_cache. rewrite grp. unfold rr_cache. now apply rr_exact. Qed.
  Lemma rr_sub : 0 <= nth (Z.to_nat g) cat_offset 0 -> 0 < nth (Z.to_nat g) cat_len 0 ->
    nth (Z.to_nat g) cat_offset 0 + nth (Z.to_nat g) cat_len 0 <= total xs ->
    nth (Z.to_nat g) cat_offset 0 + nth (Z.to_nat g) cat_len 0 <= 2 ^ 31 ->
    snd (p3_read_subfind_group (map i_file xs) (range_history (map i_file xs) calls) cat_offset cat_len g names) =
    Ok (map (fun nm => (nm, zslice (whole (map i_rows xs) nm) (nth (Z.to_nat g) cat_offset 0)
                              (nth (Z.to_nat g) cat_offset 0 + nth (Z.to_nat g) cat_len 0))) names).
  Proof.
    intros P1 P2 P3 P4. unfold p3_read_subfind_group. fold rr_cache. rewrite grp. fold goff glen in *.
    destruct (range_ok names Hnd goff (goff + glen - 1) wrap32 xs _ goff glen rr_names rr_cache_ok eq_refl ltac:(apply wrap_last; lia)) as (_ & H & _).
    replace (goff + glen - 1 + 1) with (goff + glen) in H by lia. apply H. lia.
  Qed.
  Lemma rr_sub_over : names <> [] -> nth (Z.to_nat g) cat_offset 0 < 2 ^ 31 -> nth (Z.to_nat g) cat_len 0 < 2 ^ 31 ->
    2 ^ 31 < nth (Z.to_nat g) cat_offset 0 + nth (Z.to_nat g) cat_len 0 ->
    snd (p3_read_subfind_group (map i_file xs) (range_history (map i_file xs) calls) cat_offset cat_len g names) = Err EValue.
  Proof.
    intros N P1 P2 P4. unfold p3_read_subfind_group. fold rr_cache. rewrite grp. fold goff glen in *.
    destruct (range_ok names Hnd goff (wrap32 (wrap32 (goff + glen) - 1)) wrap32 xs _ goff glen rr_names rr_cache_ok eq_refl eq_refl) as (_ & _ & H).
    apply H; [|exact N]. pose proof (wrap_last_over goff glen ltac:(lia)). lia.
  Qed.
End Range.

(** ** read_fof_group *)
Section Fof.
  Context {A : Type}.
  Variables (c : fofcat) (xs : list (@finfo A)) (calls : list grnr_t).
  Hypothesis Hc : cat_ok c.
  Hypothesis Hx : Forall finfo_ok xs.

  Lemma g4_complete i : 0 <= i < zlen (foflentype c) ->
    (forall t, In t types -> group_start c i t + group_len c i t <= tot xs t) ->
    (forall j, (0 < j < length xs)%nat -> (forall t, In t types -> group_start c i t + group_len c i t - 1 <= tot (firstn j xs) t) ->
       forall t, In t types -> 0 < group_len c i t -> tot (firstn j xs) t <> group_start c i t + group_len c i t - 1) ->
    exists out, snd (g4_read_fof_group c (map f_file xs) (fof_history c (map f_file xs) calls) (GrNr i)) = Ok out /\
                Forall2 (type_complete c (map f_rows xs) i) types out.
  Proof.
    intros Hi Hin Hb. apply fof_complete; [easy..|now apply fof_history_ok|].
    intros j Hj Hr t Ht Hl. specialize (Hb j Hj Hr t Ht Hl). specialize (Hr t Ht). lia.
  Qed.

  Lemma g4_short i : 0 <= i < zlen (foflentype c) ->
    (forall t, In t types -> group_start c i t + group_len c i t <= tot xs t) ->
    (exists out, snd (g4_read_fof_group c (map f_file xs) (fof_history c (map f_file xs) calls) (GrNr i)) = Ok out /\
                 Forall2 (type_short c (map f_rows xs) i) types out) \/
    snd (g4_read_fof_group c (map f_file xs) (fof_history c (map f_file xs) calls) (GrNr i)) = Err EValue.
  Proof. intros Hi Hin. apply fof_short; [easy..|now apply fof_history_ok]. Qed.

  Lemma g4_pair f k : (f < length (nfof_file c))%nat ->
    g4_read_fof_group c (map f_file xs) (fof_history c (map f_file xs) calls) (GrPair (Z.of_nat f) k) =
    g4_read_fof_group c (map f_file xs) (fof_history c (map f_file xs) calls) (GrNr (sumZ (firstn f (nfof_file c)) + k)).
  Proof. intro H. unfold g4_read_fof_group. now rewrite fof_index_pair. Qed.
End Fof.
