(** What a snapshot file of the Millennium-WMAP7 simulation holds, and the lines which are to be written for it. *)
From Coq Require Import Ascii String.
From Verif Require Import Base.Prelude Text.StrModel H5w.H5wModel H5w.H5wSpec H5w.H5wAttrSpec.
Local Open Scope Z_scope.
Local Open Scope list_scope.

Definition is_type (t : ty) (c : cls) (n : Z) : Prop := t_class t = c /\ t_size t = n.
(** four bytes, the lowest first *)
Definition four (e : elt) (n : Z) : Prop := exists a b c d, e = [a; b; c; d] /\ Forall (fun x => 0 <= x < 256) e /\ n = a + 256 * b + 256 ^ 2 * c + 256 ^ 3 * d.
(** the attribute has six numbers, and [n] is the second of them *)
Definition counts (a : attr) (n : Z) : Prop := is_type (a_ty a) CInt 4 /\ zlen (a_data a) = 6 /\ exists e, nth_error (a_data a) 1 = Some e /\ four e n.
Definition header (h : list obj) (n : Z) : Prop := exists a, attribute_at h [lit "Header"] (lit "NumPart_ThisFile") a /\ counts a n.
Definition particles (h : list obj) (name : string) (t : cls) (size : Z) (dims : list Z) (data : list elt) : Prop :=
  exists d, dataset_at h [lit "PartType1"; lit name] d /\ is_type (d_ty d) t size /\ d_dims d = dims /\ d_data d = data.
(** [n] particles with these positions, velocities and identifiers; the first dimension varies fastest *)
Definition snapshot (h : list obj) (n : Z) (pos vel id : list elt) : Prop :=
  1 <= n < 2 ^ 31 /\ header h n /\ particles h "Coordinates" CFloat 4 [3; n] pos /\ particles h "Velocities" CFloat 4 [3; n] vel /\ particles h "ParticleIDs" CInt 8 [n] id.
(** one line for every particle, in order *)
Definition printed (n : Z) (pos vel id : list elt) (lines : list (list elt * list elt * elt)) : Prop :=
  zlen lines = n /\ forall i, 0 <= i < n -> exists p v k, nth_error lines (Z.to_nat i) = Some (p, v, k) /\ elem [n] id [i] = Some k /\
    map Some p = map (fun c => elem [3; n] pos [c; i]) [0; 1; 2] /\ map Some v = map (fun c => elem [3; n] vel [c; i]) [0; 1; 2].
(** the box size is one number which can be turned into a double *)
Definition box_size (cv : ty -> ty -> option (elt -> elt)) (h : list obj) : Prop :=
  exists a, attribute_at h [lit "Header"] (lit "BoxSize") a /\ zlen (a_data a) = 1 /\ (is_type (a_ty a) CFloat 8 \/ cv (a_ty a) {| t_class := CFloat; t_size := 8 |} <> None).
(** a name on the command line *)
Definition plain_name (f : str) : Prop := (List.length f < 500)%nat /\ hd "x"%char f <> " "%char /\ last f "x"%char <> " "%char.
(** the array with these dimensions can take the dataset: the types agree, and the dimensions above 1 are in order at least as large *)
Definition takes (h : list obj) (name : string) (t : cls) (size : Z) (dims : list Z) : Prop :=
  exists d, dataset_at h [lit "PartType1"; lit name] d /\ is_type (d_ty d) t size /\ roomy dims (d_dims d).
