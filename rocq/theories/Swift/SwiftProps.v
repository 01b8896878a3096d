(** C53: the units of SWIFT datasets. *)
From Coq Require Import QArith Qreals Reals.
From Verif Require Import Base.Prelude Swift.SwiftModel Swift.SwiftSpec Swift.SwiftProofs Swift.SwiftFinal.
Local Open Scope Z_scope.

(** every exponent is the declared one, a and h included, and the value in CGS is the
    declared factor, except that a difference of one part in 10^9 is neglected (then
    the unit is the plain product of powers) *)
Theorem C53_soap : forall (cgs : sym -> R) a u,
  soap_units_from_attributes cgs a = Ok u ->
  (forall s, exists e, declares a s e /\ (expo u s == e)%Q) /\
  (exists x, physical_cgs a x /\ (value cgs u = x \/ (scale u = 1%R /\ agrees (value cgs u) x))).
Proof. exact @soap_ok. Qed.
Print Assumptions C53_soap.

Theorem C53_soap_defined : forall (cgs : sym -> R) a,
  (forall s, exists e, declares a s e) -> (exists x, physical_cgs a x) ->
  exists u, soap_units_from_attributes cgs a = Ok u.
Proof. exact @soap_total. Qed.
Print Assumptions C53_soap_defined.

Theorem C53_soap_missing : forall (cgs : sym -> R) a,
  (exists s, a_exp a s = None) \/ (a_phys a = None /\ a_cosmo a = None) -> soap_units_from_attributes cgs a = Err EKey.
Proof. exact @soap_missing. Qed.
Print Assumptions C53_soap_missing.

(** the swiftsimio unit has no power of a or h; the flag says whether the power of a is
    that of a length *)
Theorem C53_swiftsimio : forall (cgs : sym -> R) a u comoving,
  swiftsimio_units_from_attributes cgs a = Ok (u, comoving) ->
  (forall s, s <> Sa -> s <> Sh -> exists e, declares a s e /\ (expo u s == e)%Q) /\
  (expo u Sa == 0)%Q /\ (expo u Sh == 0)%Q /\
  (exists h, declares a Sh h /\ (h == 0)%Q) /\
  (exists ea el, declares a Sa ea /\ declares a SL el /\ (if comoving then (ea == el)%Q /\ ~ (ea == 0)%Q else (ea == 0)%Q)) /\
  (exists x, a_nocosmo a = Some x /\ (value cgs u = x \/ (scale u = 1%R /\ agrees (value cgs u) x))).
Proof. exact @simio_ok. Qed.
Print Assumptions C53_swiftsimio.

(** refused with ValueError exactly if something depends on h or the power of a is
    neither none nor that of a length *)
Theorem C53_swiftsimio_refused : forall (cgs : sym -> R) a ex x,
  (forall s, a_exp a s = Some (ex s)) -> a_nocosmo a = Some x ->
  (if Qeq_bool (ex Sh) 0 && (Qeq_bool (ex Sa) 0 || Qeq_bool (ex Sa) (ex SL))
   then exists u, swiftsimio_units_from_attributes cgs a = Ok (u, negb (Qeq_bool (ex Sa) 0))
   else swiftsimio_units_from_attributes cgs a = Err EValue).
Proof. exact @simio_total. Qed.
Print Assumptions C53_swiftsimio_refused.

(** a dataset reached from the file by any keys has the mode and metadata of the file
    and its own attributes and data *)
Theorem C53_path : forall {Key Data Reg} m (r : Reg) (g : Key -> res (@hobj Key Data)) ks a d,
  hwalk (HGroup g) ks = Ok (HDataset a d) ->
  exists m' r', walk (WGroup g m r) ks = Ok (WDataset a d m' r') /\ m' = m /\ r' = r.
Proof. exact @read_path. Qed.
Print Assumptions C53_path.

Theorem C53_path_only : forall {Key Data Reg} m (r : Reg) (g : Key -> res (@hobj Key Data)) ks a d m' r',
  walk (WGroup g m r) ks = Ok (WDataset a d m' r') ->
  hwalk (HGroup g) ks = Ok (HDataset a d) /\ m' = m /\ r' = r.
Proof. exact @read_path_conv. Qed.
Print Assumptions C53_path_only.

Theorem C53_path_error : forall {Key Data Reg} m (r : Reg) (g : Key -> res (@hobj Key Data)) ks e,
  hwalk (HGroup g) ks = Err e -> walk (WGroup g m r) ks = Err e.
Proof. exact @read_path_error. Qed.
Print Assumptions C53_path_error.

(** reading gives the data as stored with the unit of the mode *)
Theorem C53_read : forall {Data Reg} (soap_cgs simio_cgs : Reg -> sym -> R) a (d : Data) (r : Reg),
  (forall out, dataset_getitem soap_cgs simio_cgs a d Soap r = Ok out ->
     exists u, out = (d, u, None) /\ soap_units_from_attributes (soap_cgs r) a = Ok u) /\
  (forall out, dataset_getitem soap_cgs simio_cgs a d Swiftsimio r = Ok out ->
     exists u c e, out = (d, u, Some (c, e)) /\ swiftsimio_units_from_attributes (simio_cgs r) a = Ok (u, c) /\ declares a Sa e) /\
  dataset_getitem soap_cgs simio_cgs a d OtherMode r = Err EValue.
Proof. exact @read_modes. Qed.
Print Assumptions C53_read.

(** a length whose base unit is 3 cm and whose factor is 6; comoving in the second case;
    the square of a with a length in the third *)
Example ex_soap : exists u, soap_units_from_attributes ex_cgs (ex_attrs 0) = Ok u /\ (expo u SL == 1)%Q /\ (expo u Sa == 0)%Q /\ scale u = 2%R.
Proof. exact ex_soap_lemma. Qed.
Example ex_simio : exists u, swiftsimio_units_from_attributes ex_cgs (ex_attrs 1) = Ok (u, true).
Proof. exact ex_simio_lemma. Qed.
Example ex_refused : swiftsimio_units_from_attributes ex_cgs (ex_attrs 2) = Err EValue.
Proof. exact ex_refused_lemma. Qed.
Example ex_walk : walk (WGroup (fun k : nat => match k with O => Ok (HGroup (fun _ => Ok (HDataset (ex_attrs 0) 5))) | _ => Err EKey end) Swiftsimio 7) [0%nat; 3%nat]
  = Ok (WDataset (ex_attrs 0) 5 Swiftsimio 7).
Proof. reflexivity. Qed.
