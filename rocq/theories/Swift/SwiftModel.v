(** Model of formats/swift.py: the units made from the attributes of a dataset, and
    the wrappers around h5py objects.

    Simplified: a unyt unit is a real factor times a product of powers of the five
    base units of the snapshot and of the expansion factor a and h, with rational
    exponents (every floating point number is one); its value in CGS is computed
    without rounding from the values of these (unyt's conversion of units with an
    electric current to CGS is not modelled separately). The object
    unyt.dimensionless, which the code tests for with [is], is None. *)
From Coq Require Import QArith Qreals Reals.
From Verif Require Import Base.Prelude.
Local Open Scope Z_scope.

Inductive sym := SI | SL | SM | ST | St | Sa | Sh.
Definition sym_eqb (x y : sym) : bool :=
  match x, y with SI, SI | SL, SL | SM, SM | ST, ST | St, St | Sa, Sa | Sh, Sh => true | _, _ => false end.
Definition syms : list sym := [SI; SL; SM; ST; St; Sa; Sh].

Record unit_t := { scale : R; expo : sym -> Q }.
(** unyt.Unit("snap_length", registry) and so on *)
Definition base_unit (s : sym) : unit_t := {| scale := 1%R; expo := fun t => if sym_eqb s t then 1%Q else 0%Q |}.
Definition dimensionless : unit_t := {| scale := 1%R; expo := fun _ => 0%Q |}.
Definition umul (u v : unit_t) : unit_t := {| scale := (scale u * scale v)%R; expo := fun s => (expo u s + expo v s)%Q |}.
Definition upow (u : unit_t) (e : Q) : unit_t := {| scale := Rpower (scale u) (Q2R e); expo := fun s => (expo u s * e)%Q |}.
(** unit * factor *)
Definition uscale (u : unit_t) (f : R) : unit_t := {| scale := (scale u * f)%R; expo := expo u |}.

(** attributes of a dataset, absent if None *)
Record attrs := {
  a_exp : sym -> option Q;       (** "U_I exponent" ... "a-scale exponent", "h-scale exponent" *)
  a_phys : option R;             (** "Conversion factor to physical CGS (including cosmological corrections)" *)
  a_cosmo : option R;            (** "Conversion factor to CGS (including cosmological corrections)" *)
  a_nocosmo : option R           (** "Conversion factor to CGS (not including cosmological corrections)" *)
}.
Definition get {A} (o : option A) : res A := match o with Some a => Ok a | None => Err EKey end.

Section Units.
  (** the values in CGS of the base units, of a and of h *)
  Variable cgs_of : sym -> R.

  (** float((1.0*unit).in_cgs().value) *)
  Definition in_cgs (u : unit_t) : R := fold_right (fun s acc => (Rpower (cgs_of s) (Q2R (expo u s)) * acc)%R) (scale u) syms.

  (** lines 99-109: one pass of the loop; None is unyt.dimensionless *)
  Definition add_factor (a : attrs) (u : option unit_t) (s : sym) : res (option unit_t) :=
    do e <- get (a_exp a s);
    let unit := base_unit s in
    if Qeq_bool e 1 then Ok (Some (match u with None => unit | Some v => umul v unit end))
    else if negb (Qeq_bool e 0) then Ok (Some (match u with None => upow unit e | Some v => umul v (upow unit e) end))
    else Ok u.
  (** lines 112-127: the a and h factors *)
  Definition add_scale (a : attrs) (u : option unit_t) (s : sym) : res (option unit_t) :=
    do e <- get (a_exp a s);
    let unit := upow (base_unit s) e in
    if negb (Qeq_bool e 0) then Ok (Some (match u with None => unit | Some v => umul v unit end)) else Ok u.

  (** np.isclose(factor, 1.0, atol=0.0, rtol=1.0e-9) *)
  Definition isclose1 (f : R) : bool := if Rle_dec (Rabs (f - 1)) (1 / 1000000000)%R then true else false.

  (** lines 80-141 *)
  Definition soap_units_from_attributes (a : attrs) : res unit_t :=
    do u <- add_factor a None SI;
    do u <- add_factor a u SL;
    do u <- add_factor a u SM;
    do u <- add_factor a u ST;
    do u <- add_factor a u St;
    do u <- add_scale a u Sa;
    do u <- add_scale a u Sh;
    let unit := match u with Some v => v | None => dimensionless end in
    do from_attrs <- (match a_phys a with Some x => Ok x | None => get (a_cosmo a) end);
    let factor := (from_attrs / in_cgs unit)%R in
    if isclose1 factor then Ok unit else Ok (uscale unit factor).

  (** lines 178-228: the unit and the flag comoving *)
  Definition swiftsimio_units_from_attributes (a : attrs) : res (unit_t * bool) :=
    do u <- add_factor a None SI;
    do u <- add_factor a u SL;
    do u <- add_factor a u SM;
    do u <- add_factor a u ST;
    do u <- add_factor a u St;
    do h <- get (a_exp a Sh);
    do _ <- check (Qeq_bool h 0) EValue;
    do ea <- get (a_exp a Sa);
    do el <- get (a_exp a SL);
    do comoving <- (if Qeq_bool ea 0 then Ok false else if Qeq_bool ea el then Ok true else Err EValue);
    let unit := match u with Some v => v | None => dimensionless end in
    do from_attrs <- get (a_nocosmo a);
    let factor := (from_attrs / in_cgs unit)%R in
    Ok (if negb (isclose1 factor) then uscale unit factor else unit, comoving).
End Units.

(** ** the wrappers *)
Section Wrap.
  (** the modes, and everything that is attached to a wrapped object; attributes
      and contents of a dataset *)
  Context {Key Data Reg : Type}.
  Inductive mode := Soap | Swiftsimio | OtherMode.
  (** an object in a file *)
  Inductive hobj := HDataset (a : attrs) (d : Data) | HGroup (get : Key -> res hobj) | HOther.
  (** soap_registry, swiftsimio_units, cosmology and expansion_factor are one value *)
  Inductive wobj := WDataset (a : attrs) (d : Data) (m : mode) (r : Reg) | WGroup (get : Key -> res hobj) (m : mode) (r : Reg) | WOther.

  (** SwiftGroup.__getitem__, lines 301-315 *)
  Definition group_getitem (g : Key -> res hobj) (m : mode) (r : Reg) (k : Key) : res wobj :=
    do o <- g k;
    Ok (match o with
        | HDataset a d => WDataset a d m r
        | HGroup g' => WGroup g' m r
        | HOther => WOther
        end).
  (** what is found following keys from a wrapped object; a dataset or other object
      has no items of this kind *)
  Fixpoint walk (w : wobj) (ks : list Key) : res wobj :=
    match ks with
    | [] => Ok w
    | k :: ks' =>
        match w with
        | WGroup g m r => do w' <- group_getitem g m r k; walk w' ks'
        | _ => Err EType
        end
    end.
  Fixpoint hwalk (o : hobj) (ks : list Key) : res hobj :=
    match ks with
    | [] => Ok o
    | k :: ks' => match o with HGroup g => do o' <- g k; hwalk o' ks' | _ => Err EType end
    end.

  (** SwiftDataset.__getitem__, lines 269-286: the values read with their unit, and in
      swiftsimio mode the flag comoving and the power of a *)
  Definition dataset_getitem (soap_cgs simio_cgs : Reg -> sym -> R) (a : attrs) (d : Data) (m : mode) (r : Reg) : res (Data * unit_t * option (bool * Q)) :=
    match m with
    | Soap => do u <- soap_units_from_attributes (soap_cgs r) a; Ok (d, u, None)
    | Swiftsimio =>
        do (u, c) <- swiftsimio_units_from_attributes (simio_cgs r) a;
        do ea <- get (a_exp a Sa);
        Ok (d, u, Some (c, ea))
    | OtherMode => Err EValue
    end.
End Wrap.
