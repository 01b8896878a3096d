(** Model of the IDL programs /repo/examples/millennium/idl/PlotSpectrum.pro and PlotCorrel.pro:
    whole programs up to the plots.

    A text file is the list of its lines, a line the list of the numbers in it. Numbers of type
    FLOAT and DOUBLE are exact. alog, alog10, exp and the function interpol are arguments. The
    result is what is plotted, y before the logarithm is taken; what was plotted before an error is
    left out, and so are axes and labels. There is memory for all arrays. [steps] bounds the number
    of passes through a loop. *)
From Coq Require Import QArith Qround.
From Verif.Base Require Import Prelude.
Local Open Scope Z_scope. Local Open Scope list_scope.

(** readf into variables with [n] numbers: from the next line on as many lines as it takes; what
    remains of the last line is lost. The end of the file is an error. *)
Fixpoint readf (n : nat) (f : list (list Q)) : res (list Q * list (list Q)) :=
  match f with
  | [] => Err EIO
  | l :: f => if (n <=? length l)%nat then Ok (firstn n l, f) else do (r, f) <- readf (n - length l) f; Ok (l ++ r, f)
  end.
(** a number as an integer, towards 0; INT has 16 bits and LONG 32 *)
Definition trunc (q : Q) : Z := if Qle_bool 0 q then Qfloor q else - Qfloor (- q).
Definition int16 (v : Z) : Z := (v + 2 ^ 15) mod 2 ^ 16 - 2 ^ 15.
Definition int32 (v : Z) : Z := (v + 2 ^ 31) mod 2 ^ 32 - 2 ^ 31.
(** the rows of fltarr(cols, n), as they are in memory *)
Fixpoint rows (cols n : nat) (da : list Q) : list (list Q) := match n with O => [] | S n => firstn cols da :: rows cols n (skipn cols da) end.
(** da(c,* ) *)
Definition column (c : nat) (da : list (list Q)) : list Q := map (fun r => nth c r 0%Q) da.
(** fltarr(cols, n), which has to have elements, and readf *)
Definition read_array (cols : nat) (n : Z) (f : list (list Q)) : res (list (list Q) * list (list Q)) :=
  do _ <- check (0 <? n) EValue;
  do (da, f) <- readf (cols * Z.to_nat n) f;
  Ok (rows cols (Z.to_nat n) da, f).
(** PlotSpectrum.pro lines 52-55 and 56-59, PlotCorrel.pro lines 5-8: time, bins and the table *)
Definition read_table (cols : nat) (f : list (list Q)) : res (Q * Z * list (list Q) * list (list Q)) :=
  do (t, f) <- readf 1 f;
  do (b, f) <- readf 1 f;
  let bins := int32 (trunc (hd 0%Q b)) in
  do (da, f) <- read_array cols bins f;
  Ok (hd 0%Q t, bins, da, f).
(** PlotCorrel.pro: the points *)
Definition plot_correl (file : option (list (list Q))) : res (list (Q * Q)) :=
  match file with
  | None => Err EIO
  | Some f => do (r, _) <- read_table 4 f; let da := snd r in Ok (combine (column 0 da) (column 1 da))
  end.

(** elements of an array, for a subscript which is an array: subscripts out of range are those of
    the first or the last element *)
Definition pick (l : list Q) (ind : list Z) : list Q := map (fun i => nth (Z.to_nat (Z.min (zlen l - 1) (Z.max 0 i))) l 0%Q) ind.
(** for a subscript which is one number they are an error *)
Definition elem (l : list Q) (i : Z) : res Q := if (0 <=? i) && (i <? zlen l) then Ok (nth (Z.to_nat i) l 0%Q) else Err EIndex.
(** the functions total, max and min *)
Definition sum (l : list Q) : Q := fold_left Qplus l 0%Q.
Definition maxq (l : list Q) : Q := match l with [] => 0%Q | x :: l => fold_left (fun a b => if Qle_bool b a then a else b) l x end.
Definition minq (l : list Q) : Q := match l with [] => 0%Q | x :: l => fold_left (fun a b => if Qle_bool a b then a else b) l x end.
(** where: without elements the result is the number -1, an error as subscript; l(where(...)) *)
Definition chosen {A} (p : A -> bool) (l : list A) : res (list A) := do _ <- check (existsb p l) EIndex; Ok (filter p l).

(** what is plotted: the linear spectrum (line 245), shot noise (262), the points with error bars
    and their counts (268-276), the points of the two measurements (338-339) *)
Record plots := { p_linear : list (Q * Q); p_shot : list (Q * Q); p_bars : list (Q * Q * Q); p_b : list (Q * Q); p_a : list (Q * Q) }.

Section Power.
  Variables alog alog10 exp : Q -> Q.
  Variable interpol : list Q -> list Q -> Q -> Q.
  Variables minmodecount target : Q.
  Variable steps : nat.

  (** line 91 *)
  Definition min_dlogk (k : list Q) : Q := ((alog10 (maxq k) - alog10 (minq k)) / target)%Q.
  (** lines 98-115, and 127-144 for the other table: k, Delta2 and count of the points; istart and fix(...) are of type INT *)
  Fixpoint bands (steps : nat) (da : list (list Q)) (mindlogk : Q) (bins istart : Z) (ind : list Z) : res (list (Q * Q * Q)) :=
    match steps with
    | O => Err EFuel
    | S steps =>
      let modecount := column 4 da in
      let count := sum (pick modecount ind) in
      let deltak := (alog10 (maxq (pick (column 0 da) ind)) - alog10 (minq (pick (column 0 da) ind)))%Q in
      let istart' := int16 (istart + 1) in
      if Qle_bool mindlogk deltak && Qle_bool minmodecount count then
        let d2 := (sum (pick (column 8 da) ind) / sum (pick modecount ind))%Q in
        let b := int16 (trunc (sum (map (fun p => inject_Z (fst p) * snd p)%Q (combine ind (pick modecount ind))) / sum (pick modecount ind))) in
        do kk <- elem (column 0 da) b;
        do conv <- elem (column 9 da) b;
        do shape <- elem (column 7 da) b;
        let point := (kk, conv * d2 * shape, sum (pick modecount ind))%Q in
        if bins <=? istart' then Ok [point]
        else do l <- bands steps da mindlogk bins istart' [istart']; Ok (point :: l)
      else if bins <=? istart' then Ok []
      else bands steps da mindlogk bins istart' (ind ++ [istart'])
    end.
  (** lines 93-118 and 122-147: the first element of the lists is left out, without more there is an error *)
  Definition binning (da : list (list Q)) (mindlogk : Q) (bins : Z) : res (list (Q * Q * Q)) :=
    do l <- bands steps da mindlogk bins 0 [0];
    do _ <- check (0 <? zlen l) EIndex;
    Ok l.

  (** lines 155-168; [a] is the time *)
  Definition growth (file : option (list (list Q))) (a : Q) : res Q :=
    match file with
    | None => Err EIO
    | Some f => do (da, _) <- read_array 2 110 f; Ok (exp (interpol (map alog (column 1 da)) (map alog (column 0 da)) (alog a)))
    end.
  (** lines 173-207; [newlines] is what wc counts *)
  Definition linear (file : option (list (list Q))) (newlines : Z) (growthfac : Q) : res (list (Q * Q)) :=
    match file with
    | None => Err EIO
    | Some f =>
      do _ <- check (0 <? newlines - 1) EValue;
      do (_, f) <- readf 2 f;
      do (en, _) <- read_array 4 (newlines - 1) f;
      do l <- chosen (fun p => negb (Qle_bool (snd p) 0)) (combine (column 0 en) (column 1 en));
      do k1 <- elem (map fst l) (zlen l - 2);
      do k2 <- elem (map fst l) (zlen l - 1);
      do d1 <- elem (map snd l) (zlen l - 2);
      do d2 <- elem (map snd l) (zlen l - 1);
      let k_ext := 400%Q in
      let d2_ext := exp (alog (d2 / d1) / alog (k2 / k1) * alog (k_ext / k2) + alog d2)%Q in
      Ok (map (fun p => (fst p, snd p / (growthfac * growthfac))%Q) (l ++ [(k_ext, d2_ext)]))
    end.

  (** PlotSpectrum.pro lines 43-339: the number of rows which is used for both tables is that of the second *)
  Definition plot_spectrum (file growthfile inputfile : option (list (list Q))) (newlines : Z) : res plots :=
    match file with
    | None => Err EIO
    | Some f =>
      do (r1, f) <- read_table 10 f;
      do (r2, _) <- read_table 10 f;
      let da1 := snd r1 in
      let '(time, bins, da2) := r2 in
      let mindlogk := min_dlogk (column 0 da1) in
      do list_a <- binning da1 mindlogk bins;
      do list_b <- binning da2 mindlogk bins;
      do growthfac <- growth growthfile time;
      do lin <- linear inputfile newlines growthfac;
      do b <- chosen (fun p => negb (Qle_bool 5 (fst (fst p))) && Qle_bool (1 # 100) (fst (fst p))) list_b;
      do a <- chosen (fun p => Qle_bool 5 (fst (fst p)) && Qle_bool (fst (fst p)) 200) list_a;
      Ok {| p_linear := lin; p_shot := combine (column 0 da2) (column 2 da2);
            p_bars := filter (fun p => negb (Qle_bool 10000 (snd p))) (map (fun p => (fst p, snd p / 2)%Q) list_b);
            p_b := map fst b; p_a := map fst a |}
    end.
End Power.
