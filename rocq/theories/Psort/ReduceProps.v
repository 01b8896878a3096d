(** Property theorems C13 (reduce_elements) and C14 (parallel_bincount). *)
From Verif.Base Require Import Prelude Order.
From Verif.Psort Require Import MoveSpec SortSpec MatchSpec ReduceModel ReduceSpec ReduceFinal BincountFinal.
Local Open Scope Z_scope.

(** C13. Every update is applied exactly once to its target; the result does not
    depend on the permutation np.argsort chose. *)
Theorem C13_reduce_elements :
  forall (A B : Type) (op : A -> B -> A) (junk : B) (orders : list (list Z)) (arr : list (list A)) (updates : list (list B)) (index : list (list Z)),
  length index = length arr -> layout index = layout updates -> Forall2 (is_argsort ZOrd) index orders ->
  Forall (Forall (fun i => 0 <= i < total arr)) index ->
  (forall a u v, op (op a u) v = op (op a v) u) ->
  exists out, reduce_elements op junk orders arr updates index = Ok out /\ layout out = layout arr /\
    forall g a, global_at arr g a -> global_at out g (fold_left op (updates_for g index updates) a).
Proof. exact @reduce_elements_commuting. Qed.
Print Assumptions C13_reduce_elements.

(** Without commutation: each element still receives exactly its own updates, in
    some order. *)
Theorem C13_any_operation :
  forall (A B : Type) (op : A -> B -> A) (junk : B) (orders : list (list Z)) (arr : list (list A)) (updates : list (list B)) (index : list (list Z)),
  length index = length arr -> layout index = layout updates -> Forall2 (is_argsort ZOrd) index orders ->
  Forall (Forall (fun i => 0 <= i < total arr)) index ->
  exists out, reduce_elements op junk orders arr updates index = Ok out /\ layout out = layout arr /\
    forall g a, global_at arr g a ->
      exists us, Permutation us (updates_for g index updates) /\ global_at out g (fold_left op us a).
Proof. exact @reduce_elements_spec. Qed.
Print Assumptions C13_any_operation.

(** Elements that no index refers to are unchanged. *)
Theorem C13_untouched :
  forall (A B : Type) (op : A -> B -> A) (junk : B) (orders : list (list Z)) (arr : list (list A)) (updates : list (list B)) (index : list (list Z)) out,
  length index = length arr -> layout index = layout updates -> Forall2 (is_argsort ZOrd) index orders ->
  Forall (Forall (fun i => 0 <= i < total arr)) index -> reduce_elements op junk orders arr updates index = Ok out ->
  forall g a, global_at arr g a -> ~ In g (concat index) -> global_at out g a.
Proof. exact @reduce_elements_untouched. Qed.
Print Assumptions C13_untouched.

(** An index outside the array is never silently dropped or redirected. *)
Theorem C13_bad_index :
  forall (A B : Type) (op : A -> B -> A) (junk : B) (orders : list (list Z)) (arr : list (list A)) (updates : list (list B)) (index : list (list Z)) i,
  length index = length arr -> layout index = layout updates -> Forall2 (is_argsort ZOrd) index orders ->
  In i (concat index) -> ~ (0 <= i < total arr) ->
  exists e, reduce_elements op junk orders arr updates index = Err e.
Proof. exact @reduce_elements_rejects. Qed.
Print Assumptions C13_bad_index.

(** Multidimensional updates: flattening them for the exchange changes nothing. *)
Theorem C13_multidimensional :
  forall (A B : Type) (op : A -> list B -> A) (junk : B) (junkr : list B) (nv : Z) (orders : list (list Z)) (arr : list (list A))
    (updates : list (list (list B))) (index : list (list Z)),
  0 <= nv -> row_width nv updates ->
  length index = length arr -> layout index = layout updates -> Forall2 (is_argsort ZOrd) index orders ->
  Forall (Forall (fun i => 0 <= i < total arr)) index ->
  reduce_elements_nd op junk nv orders arr updates index = reduce_elements op junkr orders arr updates index.
Proof. exact @reduce_elements_rows. Qed.
Print Assumptions C13_multidimensional.

(** C14. Without a result array: the length, the distribution and every bin. *)
Theorem C14_parallel_bincount :
  forall (W : Type) (add : W -> W -> W) (zero one junk : W) (sort1 sort2 : nat -> list Z -> list Z)
    (x : list (list Z)) (weights : option (list (list W))) (minlength : option Z),
  exact_addition add zero ->
  (forall r l, is_argsort ZOrd l (sort1 r l)) -> (forall r l, is_argsort ZOrd l (sort2 r l)) ->
  x <> [] -> Forall (Forall (fun i => 0 <= i)) x -> (forall w, weights = Some w -> layout w = layout x) ->
  exists out, parallel_bincount add zero one junk sort1 sort2 x weights minlength None = Ok out /\
    length out = length x /\ bins_needed (concat x) minlength (total out) /\ even_layout (layout out) /\
    forall g, 0 <= g < total out ->
      global_at out g (bin_total add zero g x (match weights with Some w => w | None => map (map (fun _ => one)) x end)).
Proof. exact @bincount_fresh. Qed.
Print Assumptions C14_parallel_bincount.

(** With a result array of any layout: the bins are added to its contents, or a
    ValueError is raised if it is too small. *)
Theorem C14_supplied_result :
  forall (W : Type) (add : W -> W -> W) (zero one junk : W) (sort1 sort2 : nat -> list Z -> list Z)
    (x : list (list Z)) (weights : option (list (list W))) (minlength : option Z) (result : list (list W)) (n : Z),
  exact_addition add zero ->
  (forall r l, is_argsort ZOrd l (sort1 r l)) -> (forall r l, is_argsort ZOrd l (sort2 r l)) ->
  Forall (Forall (fun i => 0 <= i)) x -> (forall w, weights = Some w -> layout w = layout x) ->
  length result = length x -> bins_needed (concat x) minlength n ->
  (n <= total result ->
   exists out, parallel_bincount add zero one junk sort1 sort2 x weights minlength (Some result) = Ok out /\
     layout out = layout result /\
     forall g a, global_at result g a ->
       global_at out g (add a (bin_total add zero g x (match weights with Some w => w | None => map (map (fun _ => one)) x end)))) /\
  (total result < n -> parallel_bincount add zero one junk sort1 sort2 x weights minlength (Some result) = Err EValue).
Proof. exact @bincount_into. Qed.
Print Assumptions C14_supplied_result.

(** A negative entry is always an error. *)
Theorem C14_negative_entry :
  forall (W : Type) (add : W -> W -> W) (zero one junk : W) (sort1 sort2 : nat -> list Z -> list Z)
    (x : list (list Z)) (weights : option (list (list W))) (minlength : option Z) (result : option (list (list W))) i,
  exact_addition add zero ->
  (forall r l, is_argsort ZOrd l (sort1 r l)) -> (forall r l, is_argsort ZOrd l (sort2 r l)) ->
  (forall w, weights = Some w -> layout w = layout x) -> (forall res, result = Some res -> length res = length x) ->
  In i (concat x) -> i < 0 ->
  exists e, parallel_bincount add zero one junk sort1 sort2 x weights minlength result = Err e.
Proof. exact @bincount_negative. Qed.
Print Assumptions C14_negative_entry.

(** *** Concrete cases *)

(** duplicates on one rank and between ranks, an empty rank; the argsort is not the stable one *)
Example ex_reduce :
  reduce_elements Z.add 99 [[1; 2; 0]; []; [1; 0]] [[10; 20]; [30]; [40; 50]] [[1; 2; 4]; []; [8; 16]] [[4; 0; 4]; []; [2; 0]]
    = Ok [[10 + 2 + 16; 20]; [30 + 8]; [40; 50 + 1 + 4]].
Proof. vm_compute. reflexivity. Qed.
(** index N passes the assertion [index_recv <= len(arr)] and is only caught by the
    IndexError of the update itself *)
Example ex_reduce_off_by_one :
  reduce_elements Z.add 99 [[0]; []] [[10]; [20]] [[1]; []] [[2]; []] = Err EIndex /\
  reduce_elements Z.add 99 [[0]; []] [[10]; [20]] [[1]; []] [[3]; []] = Err EAssert.
Proof. vm_compute. split; reflexivity. Qed.
Example ex_bincount :
  parallel_bincount Z.add 0 1 99 (fun _ => argsort ZOrd) (fun _ => argsort ZOrd) [[4; 1; 1]; []; [1; 6]] None (Some 3) None
    = Ok [[0; 3; 0]; [0; 1]; [0; 1]].
Proof. vm_compute. reflexivity. Qed.
Example ex_bincount_weights_into :
  parallel_bincount Z.add 0 1 99 (fun _ => argsort ZOrd) (fun _ => argsort ZOrd) [[2; 0]; [2]] (Some [[5; 7]; [100]]) None (Some [[1]; [1; 1; 1]])
    = Ok [[8]; [1; 106; 1]].
Proof. vm_compute. reflexivity. Qed.
(** no data at all still gives one (empty) bin *)
Example ex_bincount_nothing :
  parallel_bincount Z.add 0 1 99 (fun _ => argsort ZOrd) (fun _ => argsort ZOrd) [[]; []] None None None = Ok [[0]; []].
Proof. vm_compute. reflexivity. Qed.
