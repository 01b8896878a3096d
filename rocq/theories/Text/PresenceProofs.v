(** Proofs for C79. *)
From Coq Require Import Ascii String.
From Verif Require Import Base.Prelude Base.ListLemmas Base.NdArray Formats.ReaderModel Multi.GroupCatModel.
From Verif Require Import Text.StrModel Text.StrProofs Text.EagleModel Text.EagleSpec Text.EagleProofs Text.EagleFinal Text.PresenceModel Text.PresenceSpec.
From Coq Require Import ZifyBool ZifyNat.
Local Open Scope char_scope.
Local Open Scope Z_scope.
Local Open Scope list_scope.

Lemma in_names_In n l : in_names n l = true <-> In n l.
Proof.
  unfold in_names. rewrite existsb_exists. split.
  - intros (x & H & E). apply str_eqb_eq in E. now subst.
  - intro H. exists n. split; [exact H|]. now apply str_eqb_eq.
Qed.
Lemma found_present file l n : present (Some l) file n (zlen (filter (fun i => in_names (file i) l) (zseq 0 (Z.to_nat n)))).
Proof.
  exists (filter (fun i => in_names (file i) l) (zseq 0 (Z.to_nat n))). split; [apply NoDup_filter, NoDup_zseq|]. split; [|reflexivity].
  intro i. rewrite filter_In, In_zseq, in_names_In. split.
  - intros [H H2]. split; [lia|]. now exists l.
  - intros [H (l' & E & H2)]. injection E as <-. split; [lia | exact H2].
Qed.
Lemma none_present file n : present None file n 0.
Proof. exists []. split; [constructor|]. split; [|reflexivity]. intro i. split; [contradiction|]. intros [_ (l & H & _)]. discriminate. Qed.
Lemma present_le names file n k : present names file n k -> 0 <= k <= Z.max 0 n.
Proof.
  intros (found & Hn & Hf & ->). split; [unfold zlen; lia|].
  assert (length found <= length (zseq 0 (Z.to_nat n)))%nat as H. { apply NoDup_incl_length; [exact Hn|]. intros i Hi. apply Hf in Hi. apply In_zseq. lia. }
  rewrite zseq_length in H. unfold zlen. lia.
Qed.
Lemma present_all names file n k : 0 <= n -> present names file n k -> (k = n <-> forall i, 0 <= i < n -> exists l, names = Some l /\ In (file i) l).
Proof.
  intros H0 (found & Hn & Hf & ->). split.
  - intros E i Hi. apply Hf. assert (incl (zseq 0 (Z.to_nat n)) found) as Hincl.
    { apply NoDup_length_incl; [exact Hn| |].
      - rewrite zseq_length. unfold zlen in E. lia.
      - intros j Hj. apply Hf in Hj. apply In_zseq. lia. }
    apply Hincl, In_zseq. lia.
  - intro H. assert (Permutation found (zseq 0 (Z.to_nat n))) as P.
    { apply NoDup_Permutation; [exact Hn | apply NoDup_zseq|]. intro i. rewrite Hf, In_zseq. split; [lia|]. intro. split; [lia | apply H; lia]. }
    apply Permutation_length in P. rewrite zseq_length in P. unfold zlen. lia.
Qed.

(** what [verdict] prints *)
Lemma verdict_ok dirbase filebase isnap n k names file : present names file n k ->
  let v := verdict dirbase filebase isnap k n in (snd v = true <-> complete (Ok n) names file) /\ says dirbase filebase isnap (Ok n) names file (fst v).
Proof.
  intro H. cbv zeta. assert (complete (Ok n) names file <-> k = n) as Hc.
  { split.
    - intros (m & E & Hm & Ha). injection E as <-. now apply (present_all names file n k Hm H).
    - intros ->. exists n. pose proof (present_le _ _ _ _ H). split; [reflexivity|]. split; [lia|]. now apply (present_all names file n n); [lia| |]. }
  unfold verdict, says. split.
  - rewrite Hc. destruct (Z.eqb_spec k n); [cbn; tauto|]. destruct (n =? -1); cbn; split; try discriminate; contradiction.
  - exists k. split; [exact H|]. destruct (Z.eqb_spec k n) as [->|]; [reflexivity|]. now destruct (n =? -1).
Qed.
Lemma verdict_none dirbase filebase isnap e names file : let v := verdict dirbase filebase isnap 0 (-1) in (snd v = true <-> complete (Err e) names file) /\ says dirbase filebase isnap (Err e) names file (fst v).
Proof. cbn. split; [|reflexivity]. split; [discriminate|]. intros (n & H & _). discriminate. Qed.

(** paths *)
Lemma num_nonempty_last w z : exists b c, fmt_0d w z = b ++ [c] /\ c <> "/".
Proof.
  destruct (last_case (fmt_0d w z)) as [E|(b & c & E)].
  - pose proof (fmt_0d_read w z) as H. exfalso. unfold fmt_0d, pad in E. destruct z; cbn [Z.to_N] in E; [| |discriminate].
    + apply app_eq_nil in E. destruct E as [_ E]. discriminate.
    + apply app_eq_nil in E. destruct E as [_ E]. assert (dec (N.pos p) <> []) as Q. { unfold dec. cbn [digs]. destruct (_ <? _)%N; [discriminate|]. now destruct (digs _ _). } contradiction.
  - exists b, c. split; [exact E|]. intros ->. pose proof (fmt_0d_num w z) as H. rewrite E in H. apply Forall_app in H. destruct H as [_ H]. inversion H as [|? ? H1 _]. discriminate.
Qed.
Lemma split_path d t : ~ In "/" t -> (exists b c, d = b ++ [c] /\ c <> "/") -> path_split (d ++ "/" :: t) = (d, t).
Proof.
  intros Ht (b & c & -> & Hc). apply path_split_comp; [exact Ht| |].
  - intros b' E. apply app_inj_tail in E. destruct E as [_ E]. contradiction.
  - intro N. apply slashes_app in N. destruct N as [_ N]. inversion N. contradiction.
Qed.
Lemma pg_path basedir dirbase filebase isnap i : pgadget3_filename basedir dirbase filebase isnap i = pg_dir basedir dirbase isnap ++ "/" :: pg_file filebase isnap i.
Proof.
  unfold pgadget3_filename, pg_dir, pg_file. destruct (str_eqb filebase (lit "500_dm")); rewrite <- !app_assoc; cbn [app]; rewrite <- !app_assoc; cbn [app]; rewrite ?app_nil_r; reflexivity.
Qed.
Lemma pg_file_noslash filebase isnap i : ~ In "/" filebase -> ~ In "/" (pg_file filebase isnap i).
Proof.
  intros H. unfold pg_file. rewrite in_app_iff. intros [N|[N|N]]; [contradiction | discriminate|]. apply in_app_or in N. destruct N as [N|[N|N]]; [revert N; apply num_no_slash, fmt_0d_num | discriminate|].
  apply in_app_or in N. destruct N as [N|N]; [revert N; apply num_no_slash, fmt_d_num|]. destruct (str_eqb filebase (lit "500_dm")); [|contradiction]. cbn in N. repeat destruct N as [N|N]; discriminate || contradiction.
Qed.
Lemma pg_split basedir dirbase filebase isnap i : ~ In "/" filebase -> path_split (pgadget3_filename basedir dirbase filebase isnap i) = (pg_dir basedir dirbase isnap, pg_file filebase isnap i).
Proof.
  intro H. rewrite pg_path. apply split_path; [now apply pg_file_noslash|]. destruct (num_nonempty_last 3 isnap) as (b & c & E & Hc). exists (basedir ++ "/" :: dirbase ++ "_" :: b), c. split; [|exact Hc].
  unfold pg_dir. rewrite E, <- app_assoc. cbn [app]. now rewrite <- app_assoc.
Qed.

Lemma filter_ext_in' {A} (f g : A -> bool) l : (forall a, f a = g a) -> filter f l = filter g l.
Proof. intro H. induction l as [|a l IH]; cbn; [reflexivity|]. now rewrite H, IH. Qed.

Lemma pg_check listing basedir dirbase filebase isnap get : ~ In "/" filebase ->
  let dir := pg_dir basedir dirbase isnap in
  let first := get (dir ++ "/" :: pg_file filebase isnap 0) in
  let r := pg_check_dir listing basedir dirbase filebase isnap get in
  (snd r = true <-> complete first (listing dir) (pg_file filebase isnap)) /\ says dirbase filebase isnap first (listing dir) (pg_file filebase isnap) (fst r).
Proof.
  intro Hs. cbv zeta. unfold pg_check_dir. rewrite <- pg_path. destruct (get (pgadget3_filename basedir dirbase filebase isnap 0)) as [n|e]; [|apply verdict_none].
  unfold dirname. rewrite (pg_split basedir dirbase filebase isnap 0 Hs). cbn [fst]. destruct (listing (pg_dir basedir dirbase isnap)) as [l|]; [|apply verdict_ok, none_present].
  apply verdict_ok. rewrite (filter_ext_in' _ (fun i => in_names (pg_file filebase isnap i) l)); [apply found_present|]. intro i. unfold basename. now rewrite (pg_split basedir dirbase filebase isnap i Hs).
Qed.

(** range *)
Lemma range_ok start stop step : match py_range start (stop + 1) step with Ok l => step <> 0 /\ steps start stop step l /\ NoDup l | Err e => step = 0 /\ e = EValue end.
Proof.
  unfold py_range. destruct (Z.eqb_spec step 0) as [->|Hs]; [split; reflexivity|]. split; [exact Hs|].
  split; [|apply FinFun.Injective_map_NoDup; [intros a b E; nia | apply NoDup_zseq]].
  intro i. rewrite in_map_iff. destruct (Z.ltb_spec 0 step) as [Hp|Hp].
  - split.
    + intros (k & <- & Hk). apply In_zseq in Hk. split; [exists k; lia|]. assert (k <= (stop + 1 - start + step - 1) / step - 1) as Q by lia.
      assert (step * ((stop + 1 - start + step - 1) / step) <= stop + 1 - start + step - 1) by (apply Z.mul_div_le; lia). nia.
    + intros [(k & Hk & ->) Hle]. exists k. split; [reflexivity|]. apply In_zseq. assert (k < (stop + 1 - start + step - 1) / step); [|lia].
      apply Z.lt_le_trans with (k + 1); [lia|]. apply Z.div_le_lower_bound; nia.
  - set (s := - step) in *. assert (0 < s) as Hs' by lia. assert (step = - s) as E by lia. clearbody s. subst step. split.
    + intros (k & <- & Hk). apply In_zseq in Hk. split; [exists k; lia|]. assert (k <= (start - (stop + 1) - - s - 1) / s - 1) as Q by lia.
      assert (s * ((start - (stop + 1) - - s - 1) / s) <= start - (stop + 1) - - s - 1) by (apply Z.mul_div_le; lia). nia.
    + intros [(k & Hk & ->) Hle]. exists k. split; [reflexivity|]. apply In_zseq. assert (k < (start - (stop + 1) - - s - 1) / s); [|lia].
      apply Z.lt_le_trans with (k + 1); [lia|]. apply Z.div_le_lower_bound; nia.
Qed.
