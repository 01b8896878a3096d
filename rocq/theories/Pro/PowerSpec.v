(** What the programs for the power spectrum and the correlation function should show, stated
    without their code. *)
From Coq Require Import QArith.
From Coq Require Import Sorting.Sorted.
From Verif Require Import Base.Prelude.
Local Open Scope Z_scope. Local Open Scope list_scope.

(** the columns of a line of powerspec_*.txt *)
Notation row := (list Q).
Definition k_of (r : row) : Q := nth 0 r 0%Q.
Definition shot_of (r : row) : Q := nth 2 r 0%Q.
Definition modes_of (r : row) : Q := nth 4 r 0%Q.
Definition shape_of (r : row) : Q := nth 7 r 0%Q.
Definition power_of (r : row) : Q := nth 8 r 0%Q.
Definition conv_of (r : row) : Q := nth 9 r 0%Q.
Fixpoint added (l : list Q) : Q := match l with [] => 0%Q | x :: l => (x + added l)%Q end.

(** the lines of one table: the time, the number of rows, and the rows with [cols] numbers *)
Definition table_lines (cols : nat) (time : Q) (table : list row) (f : list (list Q)) : Prop :=
  Forall (fun r => length r = cols) table /\ 0 < zlen table < 2 ^ 31 /\ f = [time] :: [inject_Z (zlen table)] :: table.

(** the modes of the rows: enough of them, in a band which is wide enough *)
Definition full (alog10 : Q -> Q) (least width : Q) (band : list row) : Prop :=
  (least <= added (map modes_of band))%Q /\
  exists hi lo, In hi (map k_of band) /\ In lo (map k_of band) /\ Forall (fun k => lo <= k <= hi)%Q (map k_of band) /\ (width <= alog10 hi - alog10 lo)%Q.
(** no part of [l] at its beginning, except [l] itself, is full *)
Definition first_full (isfull : list row -> Prop) (l : list row) : Prop := forall p q, l = p ++ q -> p <> [] -> q <> [] -> ~ isfull p.
(** the rows in bands as small as possible one after the other, and those which remain *)
Inductive banded (isfull : list row -> Prop) : list row -> list (list row) -> list row -> Prop :=
| no_band rest : (forall p q, rest = p ++ q -> p <> [] -> ~ isfull p) -> banded isfull rest [] rest
| one_band band more bands rest : band <> [] -> isfull band -> first_full isfull band -> banded isfull more bands rest -> banded isfull (band ++ more) (band :: bands) rest.
(** the mean of the numbers of the rows, each for its modes *)
Fixpoint moment (i : Z) (band : list row) : Q := match band with [] => 0%Q | r :: band => (inject_Z i * modes_of r + moment (i + 1) band)%Q end.
Definition central (band : list row) (r : row) : Prop :=
  exists j, 0 <= j /\ nth_error band (Z.to_nat j) = Some r /\ let n := added (map modes_of band) in (inject_Z j * n <= moment 0 band /\ moment 0 band < inject_Z (j + 1) * n)%Q.
(** the point for a band: k of the central row, the mean power of the modes with the factors of this row, and the number of modes *)
Definition point_of (band : list row) (p : Q * Q * Q) : Prop :=
  let '(k, d2, count) := p in
  (count == added (map modes_of band))%Q /\
  exists r, central band r /\ k = k_of r /\ (d2 == added (map power_of band) / added (map modes_of band) * conv_of r * shape_of r)%Q.
(** the points for a table *)
Definition binned (alog10 : Q -> Q) (least width : Q) (table : list row) (points : list (Q * Q * Q)) : Prop :=
  exists bs rest, banded (full alog10 least width) table bs rest /\ Forall2 point_of bs points.
(** all modes are positive numbers or 0 *)
Definition some_modes (table : list row) : Prop := Forall (fun r => 0 <= modes_of r)%Q table.
(** the wanted width of a band *)
Definition is_width (alog10 : Q -> Q) (target : Q) (table : list row) (w : Q) : Prop :=
  exists hi lo, In hi (map k_of table) /\ In lo (map k_of table) /\ Forall (fun k => lo <= k <= hi)%Q (map k_of table) /\ (w == (alog10 hi - alog10 lo) / target)%Q.
(** rows in the order of k *)
Definition rising (table : list row) : Prop := StronglySorted (fun r s => k_of r <= k_of s)%Q table.

(** the table of the growth factor: time and factor in each line *)
Definition growth_table (table : list row) : Prop := Forall (fun r => length r = 2%nat) table /\ zlen table = 110.
Definition growth_times (table : list row) : list Q := map (fun r => nth 0 r 0%Q) table.
Definition growth_factors (table : list row) : list Q := map (fun r => nth 1 r 0%Q) table.
(** the linear spectrum: k and power, where there is power *)
Definition positive (table : list row) : list (Q * Q) := filter (fun p => negb (Qle_bool (snd p) 0)) (map (fun r => (nth 0 r 0, nth 1 r 0))%Q table).
(** three points on a line *)
Definition on_line (p q r : Q * Q) : Prop := ((snd r - snd p) * (fst q - fst p) == (snd q - snd p) * (fst r - fst p))%Q.
(** its points with powers smaller by the square of the growth factor [g], and one more point for
    k = 400 on the line through the logarithms of the last two *)
Definition linear_shown (alog exp : Q -> Q) (g : Q) (table : list row) (out : list (Q * Q)) : Prop :=
  exists l p q y, positive table = l ++ [p; q] /\ on_line (alog (fst p), alog (snd p)) (alog (fst q), alog (snd q)) (alog 400, y)%Q /\
    Forall2 (fun a o => fst o = fst a /\ snd o * (g * g) == snd a)%Q (l ++ [p; q; (400, exp y)%Q]) out.
(** k of the points of the two measurements which are shown *)
Definition large_scale (p : Q * Q * Q) : bool := Qle_bool (1 # 100) (fst (fst p)) && negb (Qle_bool 5 (fst (fst p))).
Definition small_scale (p : Q * Q * Q) : bool := Qle_bool 5 (fst (fst p)) && Qle_bool (fst (fst p)) 200.
(** points with error bars: those with less than 10000 independent modes, half of all *)
Definition with_bars (points bars : list (Q * Q * Q)) : Prop :=
  exists l, Forall2 (fun p b => fst b = fst p /\ 2 * snd b == snd p)%Q points l /\ bars = filter (fun b => negb (Qle_bool 10000 (snd b))) l.
