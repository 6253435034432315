(** Example schedules. *)
From Verif Require Import Base ScheduleModel ScheduleSpec.
From stdpp Require Import gmap strings.
Local Open Scope Z_scope.

(** maps visited in one order and in the opposite one *)
Definition one_way : map_order := mkOrder map_to_list (fun m => reflexivity _).
Definition other_way : map_order :=
  mkOrder (fun m => rev (map_to_list m)) (fun m => Permutation_sym (Permutation_rev _)).

(** a schedule whose price for storing is written twice, in other letters *)
Definition twice : gas_map :=
  <[ "BaseOperationCost"%string :=
     <[ "storeperbyte"%string := 3 ]> (<[ "STOREPERBYTE"%string := 4 ]>
       (delete "StorePerByte"%string (assign_all (FillGasMap_BaseOperationCosts 1)))) ]>
  (MakeGasMap 1 1).

(** a schedule of ones with another price for one entry *)
Definition with_price (s : section) (f : string) (v : Z) : gas_map :=
  <[ section_name s := <[ f := v ]> (default ∅ (MakeGasMap 1 1 !! section_name s)) ]> (MakeGasMap 1 1).
