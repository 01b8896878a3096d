(** Programs for the concrete cases beside the theorems. *)
From Coq Require Import Ascii String.
From Verif Require Import Base.Prelude Text.StrModel H5w.H5wModel H5w.H5wSpec.
Local Open Scope Z_scope.
Local Open Scope list_scope.

(** run the calls one after the other *)
Fixpoint play (cv : ty -> ty -> option (elt -> elt)) (cs : list call) (t : list (call * result)) (s : wst) : option (list (call * result) * wst) :=
  match cs with
  | [] => Some (t, s)
  | c :: r => match run cv c s with Go v s' => play cv r ((c, v) :: t) s' | _ => None end
  end.
Lemma play_history cv s0 cs : forall t s t' s', history cv s0 t s -> play cv cs t s = Some (t', s') -> history cv s0 t' s'.
Proof.
  induction cs as [|c cs IH]; cbn; intros t s t' s' H E; [congruence|]. destruct (run cv c s) as [v s1| |] eqn:R; try discriminate.
  eapply IH; [|exact E]. eapply h_call; eauto.
Qed.
Definition no_cv : ty -> ty -> option (elt -> elt) := fun _ _ => None.
Definition i4 : ty := {| t_class := CInt; t_size := 4 |}.
Definition r8 : ty := {| t_class := CFloat; t_size := 8 |}.
Definition c8 : ty := {| t_class := CString; t_size := 8 |}.
(** an integer of four bytes *)
Definition n4 (z : Z) : elt := [z; 0; 0; 0].
Definition vec (l : list Z) : marr := {| m_ty := i4; m_dims := [zlen l]; m_buf := map n4 l |}.
(** a file with a dataset "x" of three integers *)
Definition ex_old : dfile := {|
  heap := [{| o_node := Group [(lit "x", 1%nat)]; o_attrs := [] |};
           {| o_node := Dset {| d_ty := i4; d_dims := [3]; d_max := [Some 3]; d_chunked := false; d_data := map n4 [7; 8; 9] |}; o_attrs := [(lit "unit", {| a_ty := i4; a_dims := []; a_data := [n4 5] |})] |}];
  writable := true |}.
Definition ex_start : wst := {|
  disk := [(lit "old.h5", ex_old); (lit "locked.h5", {| heap := heap ex_old; writable := false |}); (lit "z", ex_old)];
  lib := []; next := 100; slots := repeat {| s_id := 0; s_ro := false; s_name := [] |} 1000; nopen := 0; need_init := true; cached := false;
  c_id := ([], 0%nat); c_file := []; c_dset := [] |}.
Lemma ex_fresh : fresh ex_start.
Proof. repeat split; try reflexivity. discriminate. Qed.
(** what is left of a run: the results and the files *)
Definition results (o : option (list (call * result) * wst)) : option (list result) := match o with Some (t, _) => Some (rev (map snd t)) | None => None end.
Definition ends {A} (o : out A) : Z := match o with Go _ _ => 0 | Stop _ => 1 | Wild => 2 end.
Definition after (cs : list call) : wst := match play no_cv cs [] ex_start with Some (_, s) => s | None => ex_start end.
Definition trace (cs : list call) : list (call * result) := match play no_cv cs [] ex_start with Some (t, _) => t | None => [] end.
Definition works (cs : list call) : bool := match play no_cv cs [] ex_start with Some _ => true | None => false end.
Lemma works_history cs : works cs = true -> history no_cv ex_start (trace cs) (after cs).
Proof.
  unfold works, trace, after. destruct (play no_cv cs [] ex_start) as [[t s]|] eqn:E; [|discriminate]. intros _. eapply play_history; [apply h_start|exact E].
Qed.
(** a file with one dataset which has no elements *)
Definition start_with (dims : list Z) : wst := {|
  disk := [(lit "old.h5", {| heap := [{| o_node := Group [(lit "x", 1%nat)]; o_attrs := [] |}; {| o_node := Dset {| d_ty := i4; d_dims := dims; d_max := map Some dims; d_chunked := false; d_data := [] |}; o_attrs := [] |}]; writable := true |})];
  lib := []; next := 100; slots := repeat {| s_id := 0; s_ro := false; s_name := [] |} 1000; nopen := 0; need_init := true; cached := false; c_id := ([], 0%nat); c_file := []; c_dset := [] |}.
Definition open_with (dims : list Z) : option wst := match run no_cv (COpen (lit "old.h5") None) (start_with dims) with Go (RHandle 1) s => Some s | _ => None end.
Lemma start_sound dims : Forall (fun x => 0 <= x) dims -> prod dims = 0 -> sound_files (start_with dims).
Proof.
  intros N P f d E. cbn [start_with disk assoc] in E. destruct (str_eqb _ _); [|discriminate]. injection E as <-. cbn [heap]. split; [eexists _, _; split; reflexivity|].
  constructor; [|constructor; [|constructor]].
  - split; [cbn; split; [constructor; [intros []|constructor]|constructor; [cbn; auto|constructor]]|split; constructor].
  - split; [cbn; split; [exact N|split; [unfold full; now rewrite P|apply map_length]]|split; constructor].
Qed.
