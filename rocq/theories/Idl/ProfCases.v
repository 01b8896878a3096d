(** The IDL programs for profiles: files for the examples, and programs which show wrong numbers. *)
From Coq Require Import QArith Lqa.
From Coq Require Import Ascii String.
From Coq Require Import Sorting.Permutation Sorting.Sorted.
From Verif Require Import Base.Prelude Base.ListLemmas Base.Order Binary.BinModel Formats.FileSpec Formats.CatSpec.
From Verif Require Import Text.StrModel Text.StrSpec Text.PathSpec Text.PathProofs Snap.ReadSpec Fortran.RegionSpec Fortran.GroupTabSpec Fortran.GroupTabProofs Fortran.FofSpec Index.IndexModel Fortran.RegionModel.
From Verif Require Import Idl.LibModel Idl.LibSpec Idl.SnapSpec Idl.GroupSpec Idl.StdioProofs Idl.NumberProofs Idl.TabProofs Idl.TabFinal Idl.SnapProofs Fortran.RegionProofs Fortran.RegionFinal Idl.HashProofs Idl.HashFinal Idl.GroupFinal Idl.SphereSpec Idl.SphereFinal.
From Verif Require Import Idl.ProgSpec Idl.ProgModel Idl.ProgProofs Idl.ProgFinal Idl.ProgCases Idl.ProfSpec Idl.ProfModel Idl.ProfProofs Idl.ProfFinal Idl.ProfUnique.
From Coq Require Import ZifyBool ZifyNat.
Local Open Scope Z_scope. Local Open Scope list_scope.

(** particles on a line in a box of size 800 with 4 cells along each side, the 64 cells in two files *)
Definition cell_at (p : particle) : Z := match ex_place 800 2 p with Some k => k | None => 0 end.
Definition ex_line (xs : list Z) : list particle := map (fun '(i, x) => P x 100 100 (cell_id (cell_at (P x 100 100 0)) (11 + i))) (numbered xs).
Definition line_file (xs : list Z) (c n : Z) : cellfile (list Z) := {| cf_first := c; cf_cells := map (fun k => filter (fun p => cell_at p =? k) (ex_line xs)) (zseq c (Z.to_nat n)) |}.
(** the first [n] particles are a group, which is [m] times in the catalogue *)
Definition line_tab (n m : Z) : catalogue := ex_cat (repeat n (Z.to_nat m)) (repeat 0 (Z.to_nat m)) [7; 3; 0] n m 1.
Definition line_ids (xs : list Z) (n : Z) : list Z := map (fun p => nth 0 (snd p) 0) (zslice (ex_line xs) 0 n).
Definition line_fs (files : list (cellfile (list Z))) (ids : list Z) (n m : Z) : str -> option (list Z) := moved (fun name => match ex_snaps 2 64 800 files name with
  | Some c => Some c
  | None => stored [(lit "/data/group_tab_007.0", ex_file false (line_tab n m)); (lit "/data/group_ids_007.0", ex_ids_file ids)] name
  end).

(** a group of 26 particles, nine times in the catalogue, with one more particle nearby *)
Definition xs_26 (d : Z) : list Z := map (fun x => (x + d) mod 800) (repeat 789 12 ++ repeat 788 12 ++ [176; 195; 598]).
Definition in_1 : cellfile (list Z) := Eval vm_compute in line_file (xs_26 300) 0 20.
Definition in_2 : cellfile (list Z) := Eval vm_compute in line_file (xs_26 300) 20 44.
Definition in_members (n : Z) : list particle := zslice (ex_line (xs_26 300)) 0 n.
Definition in_fs (n : Z) : str -> option (list Z) := line_fs [in_1; in_2] (line_ids (xs_26 300) n) n 9.
(** the same, moved: the centre of the sphere is in the next box *)
Definition out_1 : cellfile (list Z) := Eval vm_compute in line_file (xs_26 0) 0 20.
Definition out_2 : cellfile (list Z) := Eval vm_compute in line_file (xs_26 0) 20 44.
Definition out_members : list particle := zslice (ex_line (xs_26 0)) 0 26.
(** at least the root of the number *)
Definition ex_root (q : Q) : Q := ((q + (199 * 199)) / (2 * 199))%Q.
Lemma ex_root_ok q : (0 <= q)%Q -> (0 <= ex_root q /\ q <= ex_root q * ex_root q)%Q.
Proof.
  intro H. assert (ex_root q == (1 # 398) * q + (199 # 2))%Q as E by (unfold ex_root; field). rewrite E. split; [lra|]. assert (0 <= ((1 # 398) * q - (199 # 2)) * ((1 # 398) * q - (199 # 2)))%Q by apply sq_pos. lra.
Qed.

Ltac two_files := intros i f E; eexists (ex_snap 2 64 800 f), (ex_content 2 64 800 f); destruct i as [|[|i]]; cbn [nth_error] in E; [| |destruct i; discriminate E]; injection E as <-; one_snap.
Lemma in_files : snap_files false (ex_snaps 2 64 800 [in_1; in_2]) (lit "/data") (lit "snap") 7 2 64 800 [in_1; in_2].
Proof. two_files. Qed.
Lemma out_files : snap_files false (ex_snaps 2 64 800 [out_1; out_2]) (lit "/data") (lit "snap") 7 2 64 800 [out_1; out_2].
Proof. two_files. Qed.
Lemma in_snapshot n : whole_snapshot false (in_fs n) ex_dir (lit "snap") 7 64 800 [in_1; in_2].
Proof.
  split; [discriminate|]. split; [|split; [repeat split | split; [repeat constructor; discriminate | split; [reflexivity | lia]]]]. apply moved_snaps.
  intros i f E. destruct (in_files i f E) as (cat & content & H & R). exists cat, content. split; [|exact R]. intros s3 s1 N3 N1. cbn beta. now rewrite (H s3 s1 N3 N1).
Qed.
Lemma in_catalogue n : n = 26 \/ n = 1 -> whole_catalogue false (in_fs n) ex_dir 7 [line_tab n 9].
Proof.
  intros [-> | ->]; (split; [discriminate|]; split; [|split; [repeat constructor | split; [repeat constructor | reflexivity]]]; apply moved_tabs; intros i c E; exists (ex_file false c), [8; 8]; destruct i as [|i]; cbn [nth_error] in E; [|destruct i; discriminate E]; injection E as <-;
    split; [apply file_is_intro; [lia | lia | vm_compute; reflexivity] | apply ex_file_ok; vm_compute; reflexivity]).
Qed.
Lemma in_groups n nr : n = 26 \/ n = 1 -> 0 <= nr < 9 -> group_ids false (in_fs n) ex_dir 7 0 nr (line_ids (xs_26 300) n).
Proof.
  intros Hn Hr. apply moved_ids. exists (line_tab n 9), (ex_ids (line_ids (xs_26 300) n)), (ex_file false (line_tab n 9)), [8; 8], (ex_ids_file (line_ids (xs_26 300) n)), [5].
  split; [apply file_is_intro; [lia | lia |]; destruct Hn as [-> | ->]; vm_compute; reflexivity|].
  split; [apply ex_file_ok; destruct Hn as [-> | ->]; vm_compute; reflexivity|]. split; [apply file_is_intro; [lia | lia |]; destruct Hn as [-> | ->]; vm_compute; reflexivity|].
  split; [destruct Hn as [-> | ->]; (split; [split; [apply pieces_okb; vm_compute; reflexivity | repeat constructor; vm_compute; intuition discriminate] | reflexivity])|]. split; [exact Hr|].
  exists 0. split; [change (line_tab n 9 "GroupOffset"%string) with (repeat 0 9); assert (nr = 0 \/ nr = 1 \/ nr = 2 \/ nr = 3 \/ nr = 4 \/ nr = 5 \/ nr = 6 \/ nr = 7 \/ nr = 8) as HN by lia; repeat (destruct HN as [-> | HN]; [reflexivity|]); subst nr; reflexivity|].
  destruct Hn as [-> | ->]; (split; [lia|]; split; [vm_compute; discriminate | vm_compute; reflexivity]).
Qed.
Lemma filter_all {A} (f : A -> bool) l : (forall x, In x l -> f x = true) -> filter f l = l.
Proof. induction l as [|x l IH]; intro H; [reflexivity|]. cbn [filter]. rewrite (H x (or_introl eq_refl)), IH; [reflexivity|]. intros y Hy. apply H. now right. Qed.
(** not many particles at the same place *)
Definition apartb (least : Z) (l : list particle) : bool := (0 <? least) && forallb (fun p => zlen (filter (fun q => forallb (fun k => nth k (fst (fst p)) 0 =? nth k (fst (fst q)) 0) [0; 1; 2]%nat) l) <? least) l.
Lemma apart_intro least l : apartb least l = true -> apart inject_Z least l.
Proof.
  intro H. apply andb_true_iff in H as [H0 H]. rewrite forallb_forall in H. intros m rest HP HS. destruct m as [|p m]; [change (zlen (@nil particle)) with 0; lia|].
  set (f := fun q : particle => forallb (fun k => nth k (fst (fst p)) 0 =? nth k (fst (fst q)) 0) [0; 1; 2]%nat).
  assert (zlen (filter f l) < least) as HL by (specialize (H p (Permutation_in p (Permutation_sym HP) (or_introl eq_refl))); fold f in H; lia). rewrite (filter_len_perm f _ _ HP), filter_app in HL.
  assert (filter f (p :: m) = p :: m) as E; [|rewrite E in HL; unfold zlen in *; rewrite app_length in HL; lia].
  apply filter_all. intros q Hq. unfold f. apply forallb_forall. intros k Hk. apply Z.eqb_eq. assert (k < 3)%nat as Hk3 by (cbn in Hk; lia). specialize (HS p q k (or_introl eq_refl) Hq Hk3). unfold coordinate in HS. exact (proj1 (inject_Z_injective _ _) HS).
Qed.
(** the particles of the ids *)
Definition particle_eq (p q : particle) : {p = q} + {p <> q}.
Proof. repeat decide equality. Defined.
Definition membersb (files : list (cellfile (list Z))) (gids : list Z) (l : list particle) : bool :=
  (zlen gids =? zlen l) && forallb (fun '(gid, p) => (plain_id (id_of p) =? plain_id gid) && existsb (fun q => if particle_eq p q then true else false) (cell_of files (hash_key gid))) (combine gids l).
Lemma members_intro files gids l : membersb files gids l = true -> members_are files gids l.
Proof.
  intro H. apply andb_true_iff in H as [H0 H]. apply Z.eqb_eq in H0. revert l H0 H. induction gids as [|g gids IH]; intros [|p l] H0 H; try (unfold zlen in H0; cbn in H0; lia); [constructor|]. cbn [combine forallb] in H. apply andb_true_iff in H as [H1 H2]. apply andb_true_iff in H1 as [H1 H3].
  constructor; [|apply IH; [rewrite !zlen_cons in H0; lia | exact H2]]. split; [now apply Z.eqb_eq|]. apply existsb_exists in H3 as (q & Hq & E). destruct (particle_eq p q) as [->|]; [exact Hq | discriminate].
Qed.
Lemma in_different : different_ids [in_1; in_2].
Proof. unfold different_ids. vm_compute. repeat constructor; cbn; intuition discriminate. Qed.
Lemma in_good least n nr : n = 26 \/ n = 1 -> 12 < least -> 0 <= nr < 9 -> good_group false (in_fs n) ex_dir 7 [in_1; in_2] inject_Z 800 1000 least (n, 0, nr) (in_members n).
Proof.
  intros Hn Hl Hr. exists (line_ids (xs_26 300) n). split.
  - split; [now apply in_groups|]. split; [destruct Hn as [-> | ->]; reflexivity|]. apply members_intro; destruct Hn as [-> | ->]; vm_compute; reflexivity.
  - split; [destruct Hn as [-> | ->]; discriminate|]. split; [destruct Hn as [-> | ->]; reflexivity|]. split; [destruct Hn as [-> | ->]; discriminate|]. split; [destruct Hn as [-> | ->]; vm_compute; reflexivity|].
    split; [destruct Hn as [-> | ->]; repeat constructor; destruct k as [|[|[|]]]; try lia; vm_compute; intuition discriminate|].
    assert (apart inject_Z 13 (in_members n)) as HA by (apply apart_intro; destruct Hn as [-> | ->]; vm_compute; reflexivity). intros l rest HP HS. specialize (HA l rest HP HS). lia.
Qed.

(** *** the sphere of the group *)
Definition q_ltb (a b : Q) : bool := negb (Qle_bool b a).
Lemma q_ltb_ok a b : q_ltb a b = true -> (a < b)%Q.
Proof. unfold q_ltb. intro H. apply Qnot_le_lt. intro K. apply Qle_bool_iff in K. now rewrite K in H. Qed.
Definition aboutb (box : Q) (x y : list Q) (c : Q) : bool :=
  (zlen x =? zlen y) && forallb (fun '(a, b) => existsb (fun k => Qeq_bool (b + c) (a + inject_Z k * box)) [-1; 0; 1]) (combine x y) && Qle_bool 0 c && q_ltb c box && Qeq_bool (total y) 0 &&
  forallb (fun b => Qle_bool (- ((1 # 2) * box)) (b - nth 0 y 0%Q) && q_ltb (b - nth 0 y 0%Q) ((1 # 2) * box)) y.
Lemma about_intro box x y c : aboutb box x y c = true -> about_centre box x y c.
Proof.
  unfold aboutb. rewrite !andb_true_iff. intros (((((H0 & H1) & H2) & H3) & H4) & H5). split; [|split; [split; [now apply Qle_bool_iff | now apply q_ltb_ok] | split; [now apply Qeq_bool_iff|]]].
  - clear - H0 H1. apply Z.eqb_eq in H0. revert y H0 H1. induction x as [|a x IH]; intros [|b y] H0 H1; try (unfold zlen in H0; cbn in H0; lia); [constructor|]. cbn [combine forallb] in H1. apply andb_true_iff in H1 as [H1 H2].
    constructor; [|apply IH; [rewrite !zlen_cons in H0; lia | exact H2]]. apply existsb_exists in H1 as (k & _ & E). exists k. now apply Qeq_bool_iff.
  - rewrite forallb_forall in H5. apply Forall_forall. intros b Hb. specialize (H5 b Hb). apply andb_true_iff in H5 as [K1 K2]. split; [now apply Qle_bool_iff | now apply q_ltb_ok].
Qed.
Fixpoint orderb (l : list particle) : bool := match l with [] => true | p :: l => forallb (fun q => plain_id (id_of p) <=? plain_id (id_of q)) l && orderb l end.
Lemma order_intro l : orderb l = true -> in_id_order l.
Proof. unfold in_id_order. induction l as [|p l IH]; intro H; [constructor|]. cbn in H. apply andb_true_iff in H as [H1 H2]. constructor; [now apply IH|]. rewrite forallb_forall in H1. apply Forall_forall. intros q Hq. specialize (H1 q Hq). lia. Qed.
Definition arrangedb (members : list particle) (s : vec) (pts : list vec) : bool :=
  let '(cx, cy, cz) := s in orderb members && aboutb 800 (map (coordinate inject_Z 0) members) (map (fun q => fst (fst q)) pts) cx &&
  aboutb 800 (map (coordinate inject_Z 1) members) (map (fun q => snd (fst q)) pts) cy && aboutb 800 (map (coordinate inject_Z 2) members) (map snd pts) cz.
Lemma arranged_intro members s pts : arrangedb members s pts = true -> arranged inject_Z 800 members s pts.
Proof. destruct s as [[cx cy] cz]. unfold arrangedb. rewrite !andb_true_iff. intros (((H0 & H1) & H2) & H3). exists members. split; [reflexivity|]. split; [now apply order_intro|]. split; [now apply about_intro|]. split; now apply about_intro. Qed.
Definition sameb (a b : vec) : bool := let '(x, y, z) := a in let '(u, v, w) := b in Qeq_bool x u && Qeq_bool y v && Qeq_bool z w.
Lemma same_intro a b : sameb a b = true -> same a b.
Proof. destruct a as [[x y] z], b as [[u v] w]. cbn. rewrite !andb_true_iff. intros ((H1 & H2) & H3). repeat split; now apply Qeq_bool_iff. Qed.
Definition largestb (l : list Q) (x : Q) : bool := existsb (fun y => Qeq_bool y x) l && forallb (fun y => Qle_bool y x) l.
Lemma largest_intro l x : largestb l x = true -> largest l x.
Proof.
  unfold largestb. rewrite andb_true_iff, existsb_exists, forallb_forall. intros ((y & Hy & E) & H). split; [apply Exists_exists; exists y; split; [exact Hy | now apply Qeq_bool_iff] | apply Forall_forall; intros z Hz; apply Qle_bool_iff; now apply H].
Qed.
Lemma distances_are pts c : distances2 pts c (map (fun p => norm2 (minus p c)) pts).
Proof. unfold distances2. induction pts; constructor; [reflexivity | assumption]. Qed.
(** a sphere which is moved once, or not at all *)
Definition meanb (l : list vec) (c : vec) : bool := let n := inject_Z (zlen l) in let '(x, y, z) := c in
  Qeq_bool (n * x) (total (map (fun p => fst (fst p)) l)) && Qeq_bool (n * y) (total (map (fun p => snd (fst p)) l)) && Qeq_bool (n * z) (total (map snd l)).
Lemma mean_intro l c : meanb l c = true -> is_mean l c.
Proof. destruct c as [[x y] z]. unfold meanb, is_mean. rewrite !andb_true_iff. intros ((H1 & H2) & H3). repeat split; now apply Qeq_bool_iff. Qed.
Lemma sphere_once least s pts off m centre rad2 : largestb (map (fun p => norm2 (minus p origin)) pts) m = true -> (least <=? zlen (nearer pts origin m)) = true -> meanb (nearer pts origin m) off = true ->
  (zlen (nearer pts off ((81 # 100) * m)%Q) <? least) = true -> largestb (map (fun p => norm2 (minus p off)) pts) rad2 = true -> sameb centre (plus s off) = true -> sphere_of least s pts centre rad2.
Proof.
  intros H1 H2 H3 H4 H5 H6. exists (map (fun p => norm2 (minus p origin)) pts), m, off, (map (fun p => norm2 (minus p off)) pts). split; [apply distances_are|]. split; [now apply largest_intro|].
  split; [apply (moves _ _ _ _ off); [lia | now apply mean_intro | apply settled; lia]|]. split; [apply distances_are|]. split; [now apply largest_intro | now apply same_intro].
Qed.
Lemma sphere_settled least s pts centre rad2 : largestb (map (fun p => norm2 (minus p origin)) pts) rad2 = true -> (zlen pts <? least) = true -> sameb centre (plus s origin) = true -> sphere_of least s pts centre rad2.
Proof.
  intros H1 H2 H3. exists (map (fun p => norm2 (minus p origin)) pts), rad2, origin, (map (fun p => norm2 (minus p origin)) pts). split; [apply distances_are|]. split; [now apply largest_intro|].
  split; [apply settled; pose proof (filter_len_le (fun p => negb (Qle_bool rad2 (norm2 (minus p origin)))) pts) as H; unfold nearer; lia|]. split; [apply distances_are|]. split; [now apply largest_intro | now apply same_intro].
Qed.

(** the group of 26 particles: 24 of them are close to each other, two of them are far away *)
Definition pts_26 : list vec := map (fun x => (inject_Z x - (95 # 26), 0, 0)%Q) (repeat (-11) 12 ++ repeat (-12) 12 ++ [176; 195]).
Definition off_26 : vec := (- (4) - (95 # 26), 0, 0)%Q.
Lemma sphere_26 d : sphere_of 25 (inject_Z d + (95 # 26), 100, 100)%Q pts_26 (inject_Z d - 4, 100, 100)%Q (199 * 199).
Proof.
  apply (sphere_once _ _ _ off_26 ((195 - (95 # 26)) * (195 - (95 # 26)))%Q); try (vm_compute; reflexivity). unfold sameb, plus, off_26. rewrite !andb_true_iff. split; [split; [|reflexivity]|reflexivity]. apply Qeq_bool_iff. ring.
Qed.
Lemma in_26 : arranged inject_Z 800 (in_members 26) (300 + (95 # 26), 100, 100)%Q pts_26.
Proof. apply arranged_intro. vm_compute. reflexivity. Qed.
Lemma out_26 : arranged inject_Z 800 out_members (0 + (95 # 26), 100, 100)%Q pts_26.
Proof. apply arranged_intro. vm_compute. reflexivity. Qed.
Lemma in_1_arranged : arranged inject_Z 800 (in_members 1) (289, 100, 100)%Q [(0, 0, 0)%Q].
Proof. apply arranged_intro. vm_compute. reflexivity. Qed.
Lemma in_unique n s0 pts0 c0 r0 s pts centre rad2 : n = 26 \/ n = 1 -> arranged inject_Z 800 (in_members n) s0 pts0 -> sphere_of 25 s0 pts0 c0 r0 -> arranged inject_Z 800 (in_members n) s pts -> sphere_of 25 s pts centre rad2 -> same centre c0 /\ (rad2 == r0)%Q.
Proof.
  intros Hn A0 S0 A S. assert (in_members n <> []) as H1 by (destruct Hn as [-> | ->]; discriminate).
  assert (NoDup (map (fun p => plain_id (id_of p)) (in_members n))) as H2 by (destruct Hn as [-> | ->]; vm_compute; repeat constructor; cbn; intuition discriminate).
  destruct (arranged_unique inject_Z 800 (in_members n) s s0 pts pts0 ltac:(reflexivity) H1 H2 A A0) as [E1 E2]. exact (sphere_unique 25 pts pts0 s s0 centre c0 rad2 r0 ltac:(lia) E2 E1 S S0).
Qed.
Lemma in_sphere_26 s pts centre rad2 : arranged inject_Z 800 (in_members 26) s pts -> sphere_of 25 s pts centre rad2 -> same centre (296, 100, 100)%Q /\ (rad2 == 199 * 199)%Q.
Proof.
  intros A S. assert (sphere_of 25 (300 + (95 # 26), 100, 100)%Q pts_26 (300 - 4, 100, 100)%Q (199 * 199)) as H by exact (sphere_26 300).
  destruct (in_unique 26 _ _ _ _ _ _ _ _ (or_introl eq_refl) in_26 H A S) as [E1 E2]. split; [eapply same_trans; [exact E1 | now apply same_intro] | exact E2].
Qed.
Lemma in_sphere_1 s pts centre rad2 : arranged inject_Z 800 (in_members 1) s pts -> sphere_of 25 s pts centre rad2 -> same centre (289, 100, 100)%Q /\ (rad2 == 0)%Q.
Proof.
  intros A S. assert (sphere_of 25 (289, 100, 100)%Q [(0, 0, 0)%Q] (289, 100, 100)%Q 0) as H by (apply sphere_settled; reflexivity). exact (in_unique 1 _ _ _ _ _ _ _ _ (or_intror eq_refl) in_1_arranged H A S).
Qed.
Lemma ex_root_same a b : (a == b)%Q -> (ex_root a == ex_root b)%Q.
Proof. intro H. unfold ex_root. now rewrite H. Qed.
Lemma in_box_26 s pts centre rad2 : arranged inject_Z 800 (in_members 26) s pts -> sphere_of 25 s pts centre rad2 ->
  point_in_box 800 centre /\ (ex_root rad2 + cell_size 800 2 < (1 # 2) * 800)%Q /\ ~ in_sphere [in_1; in_2] inject_Z 800 centre rad2 [].
Proof.
  intros A S. destruct (in_sphere_26 s pts centre rad2 A S) as [E1 E2]. destruct centre as [[x y] z]. destruct E1 as (X & Y & Z). split; [cbn; repeat split; lra|]. split.
  - rewrite (ex_root_same _ _ E2). reflexivity.
  - intros (sel & rest & new & HP & F & E & _ & HR). symmetry in E. apply map_eq_nil in E. subst new. inversion F; subst sel. cbn [app] in HP. rewrite Forall_forall in HR.
    assert (In (P 289 100 100 (cell_id (cell_at (P 289 100 100 0)) 11)) rest) as I by (apply (Permutation_in _ HP); vm_compute; tauto).
    specialize (HR _ I (289 - x, 100 - y, 100 - z)%Q). assert (relative_point inject_Z 800 (x, y, z) (P 289 100 100 (cell_id (cell_at (P 289 100 100 0)) 11)) (289 - x, 100 - y, 100 - z)%Q) as R.
    { cbn. unfold coordinate. cbn [fst nth P]. repeat split; try lra; exists 0; change (inject_Z 0) with 0%Q; change (inject_Z 289) with 289%Q; change (inject_Z 100) with 100%Q; ring. }
    specialize (HR R). cbn in HR. assert (x == 296)%Q as X' by exact X. rewrite X', Y, Z in HR. rewrite E2 in HR. apply Qle_bool_iff in HR. vm_compute in HR. discriminate HR.
Qed.
Lemma in_box_1 s pts centre rad2 : arranged inject_Z 800 (in_members 1) s pts -> sphere_of 25 s pts centre rad2 ->
  point_in_box 800 centre /\ (ex_root rad2 + cell_size 800 2 < (1 # 2) * 800)%Q /\ in_sphere [in_1; in_2] inject_Z 800 centre rad2 [].
Proof.
  intros A S. destruct (in_sphere_1 s pts centre rad2 A S) as [E1 E2]. destruct centre as [[x y] z]. destruct E1 as (X & Y & Z). split; [cbn; repeat split; lra|]. split.
  - rewrite (ex_root_same _ _ E2). reflexivity.
  - exists [], (concat (cells [in_1; in_2])), []. split; [reflexivity|]. split; [constructor|]. split; [reflexivity|]. split; [constructor|]. apply Forall_forall. intros p _ d _. rewrite E2. apply norm2_pos.
Qed.
(** each entry of the table of the groups is one of the nine *)
Lemma in_table n table k group : n = 26 \/ n = 1 -> by_length [line_tab n 9] table -> nth_error table k = Some group -> exists nr, 0 <= nr < 9 /\ group = (n, 0, nr).
Proof.
  intros Hn [HP _] E. apply nth_error_In, (Permutation_in _ (Permutation_sym HP)) in E. assert (all_groups [line_tab n 9] = map (fun nr => (n, 0, nr)) (zseq 0 9)) as EA by (destruct Hn as [-> | ->]; vm_compute; reflexivity). rewrite EA in E. apply in_map_iff in E as (nr & <- & H). apply In_zseq in H. exists nr. split; [lia | reflexivity].
Qed.
Lemma in_hold : in_its_cell inject_Z 800 2 [in_1; in_2].
Proof. apply in_its_cell_intro; vm_compute; reflexivity. Qed.

(** *** the centre of a sphere outside of the box *)
Definition out_tables : hash := Eval vm_compute in match get_hash_table false (ex_snaps 2 64 800 [out_1; out_2]) (lit "/data") 7 (lit "snap") 64 (ex_t 64 2) with Ok (_, t) => t | Err _ => ex_t 0 0 end.
Definition relativeb (s : vec) (p : particle) (d : vec) : bool :=
  let one s x d := Qle_bool (- (400)) d && q_ltb d 400 && existsb (fun k => Qeq_bool d (x - s + inject_Z k * 800)) [-1; 0; 1] in
  let '(sx, sy, sz) := s in let '(dx, dy, dz) := d in one sx (coordinate inject_Z 0 p) dx && one sy (coordinate inject_Z 1 p) dy && one sz (coordinate inject_Z 2 p) dz.
Lemma relative_intro s p d : relativeb s p d = true -> relative_point inject_Z 800 s p d.
Proof.
  destruct s as [[sx sy] sz], d as [[dx dy] dz]. assert (forall s x d, Qle_bool (- (400)) d && q_ltb d 400 && existsb (fun k => Qeq_bool d (x - s + inject_Z k * 800)) [-1; 0; 1] = true -> relative 800 s x d) as K.
  { intros s x d H. rewrite !andb_true_iff in H. destruct H as ((H1 & H2) & H3). apply existsb_exists in H3 as (k & _ & E). apply Qle_bool_iff in H1; apply q_ltb_ok in H2; split; [split; lra | exists k; now apply Qeq_bool_iff]. }
  cbn [relativeb relative_point]. rewrite !andb_true_iff. intros ((H1 & H2) & H3). split; [apply K; rewrite !andb_true_iff; exact H1|]. split; apply K; rewrite !andb_true_iff; assumption.
Qed.
Definition out_d (p : particle) : vec := ((if Qle_bool (coordinate inject_Z 0 p) 400 then coordinate inject_Z 0 p + 4 else coordinate inject_Z 0 p - 796), 0, 0)%Q.
Definition out_all : list particle := concat (cells [out_1; out_2]).
Definition out_inside (p : particle) : bool := q_ltb (norm2 (out_d p)) (199 * 199).
(** the squares of the distances of all 26 particles in the sphere *)
Definition out_ds : list Q := map (fun p => norm2 (out_d p)) (filter out_inside out_all).
Lemma out_sphere : in_sphere [out_1; out_2] inject_Z 800 (0 - 4, 100, 100)%Q (199 * 199) out_ds.
Proof.
  exists (filter out_inside out_all), (filter (fun p => negb (out_inside p)) out_all), (map out_d (filter out_inside out_all)). assert (forall p, In p out_all -> relative_point inject_Z 800 (0 - 4, 100, 100)%Q p (out_d p)) as HR.
  { assert (forallb (fun p => relativeb (0 - 4, 100, 100)%Q p (out_d p)) out_all = true) as H by (vm_compute; reflexivity). rewrite forallb_forall in H. intros p Hp. now apply relative_intro, H. }
  split; [apply filter_split_perm|]. split; [|split; [unfold out_ds; now rewrite map_map | split]].
  - assert (forall l, (forall p, In p l -> In p out_all) -> Forall2 (relative_point inject_Z 800 (0 - 4, 100, 100)%Q) l (map out_d l)) as K by (induction l as [|p l IH]; intro HI; constructor; [apply HR, HI; now left | apply IH; intros q Hq; apply HI; now right]).
    apply K. intros p Hp. now apply filter_In in Hp.
  - apply Forall_forall. intros d Hd. apply in_map_iff in Hd as (p & <- & Hp). apply filter_In in Hp as [_ Hp]. now apply q_ltb_ok.
  - apply Forall_forall. intros p Hp d Hd. apply filter_In in Hp as [Ip Hp]. rewrite (relative_point_unique inject_Z 800 _ p d (out_d p) ltac:(reflexivity) Hd (HR p Ip)). apply negb_true_iff in Hp. unfold out_inside, q_ltb in Hp. apply negb_false_iff in Hp. now apply Qle_bool_iff.
Qed.
(** The sphere of a good group: its centre is at x = -4, which is 796 in the periodic box, and its
    radius is 199. The library misses the particle at x = 598. *)
Lemma edge_refuted : exists fs files t members s pts centre rad2 ds pos, snap_files false fs (lit "/data") (lit "snap") 7 2 64 800 files /\ covers 0 64 files /\ holds files t /\ in_its_cell inject_Z 800 2 files /\
  incl members (concat (cells files)) /\ Forall (in_box inject_Z 800) members /\ apart inject_Z 25 members /\ arranged inject_Z 800 members s pts /\ sphere_of 25 s pts centre rad2 /\ (rad2 == 199 * 199 /\ 199 + cell_size 800 2 < (1 # 2) * 800)%Q /\
  in_sphere files inject_Z 800 centre rad2 ds /\ zlen ds = 26 /\
  get_spherical_region_count false fs (lit "/data") 7 (lit "snap") inject_Z t 64 (fst (fst centre)) (snd (fst centre)) (snd centre) 199 800 = Ok (26, 800%Q) /\
  get_spherical_region_coordinates false fs (lit "/data") 7 (lit "snap") inject_Z inject_Z t 64 (fst (fst centre)) (snd (fst centre)) (snd centre) 199 (repeat 0%Q 78) 800 = Ok (0, pos, 800%Q) /\
  zlen (nearer (columns pos) origin rad2) = 25.
Proof.
  exists (ex_snaps 2 64 800 [out_1; out_2]), [out_1; out_2], out_tables, out_members, (0 + (95 # 26), 100, 100)%Q, pts_26, (0 - 4, 100, 100)%Q, (199 * 199)%Q, out_ds. eexists.
  split; [exact out_files|]. split; [repeat split|]. split; [exists [], [], [], []; repeat split|]. split; [apply in_its_cell_intro; vm_compute; reflexivity|].
  split; [intros p Hp; assert (forallb (fun p => existsb (fun q => if particle_eq p q then true else false) (concat (cells [out_1; out_2]))) out_members = true) as H by (vm_compute; reflexivity); rewrite forallb_forall in H; apply H, existsb_exists in Hp as (q & Hq & E); destruct (particle_eq p q) as [->|]; [exact Hq | discriminate]|].
  split; [repeat constructor; destruct k as [|[|[|]]]; try lia; vm_compute; intuition discriminate|]. split; [apply apart_intro; vm_compute; reflexivity|].
  split; [exact out_26|]. split; [exact (sphere_26 0)|]. split; [split; reflexivity|]. split; [exact out_sphere|]. split; [vm_compute; reflexivity|]. split; [vm_compute; reflexivity|]. split; [vm_compute; reflexivity | vm_compute; reflexivity].
Qed.
