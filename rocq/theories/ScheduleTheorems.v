(** C65: which prices are in force. *)
From Verif Require Import Base VmTypes ScheduleModel ScheduleSpec ScheduleProofs ExSchedule.
From stdpp Require Import gmap strings.
From Coq Require Import Lia.
Local Open Scope Z_scope.

(** A schedule is taken exactly when it is complete, and then every entry is
    charged what the schedule says, whatever the order of the map. *)
Theorem C65_taken o m : unambiguous m ->
  (is_Some (CreateGasConfig o m) <-> complete m) /\
  (forall c, CreateGasConfig o m = Some c ->
    price_list (fun s f => field (gc_section c s) f) m /\
    opcode_table (ToOpcodeCostsArray (gc_opcode c)) m).
Proof.
  intros Hu. split; [exact (accepts_complete o m Hu)|]. intros c Hc.
  split; [exact (created_list o m c Hu Hc)|exact (table_of o m c Hu Hc)].
Qed.
Print Assumptions C65_taken.

Example C65_taken_example :
  unambiguous (MakeGasMap 7 9) /\ complete (MakeGasMap 7 9) /\
  exists c, CreateGasConfig one_way (MakeGasMap 7 9) = Some c /\
    field (gc_base c) "GetCode" = 7 /\ field (gc_elrond c) "AsyncCallbackGasLock" = 9.
Proof.
  split; [apply made_unambiguous|]. split; [apply made_complete; vm_compute; discriminate|].
  destruct (proj2 (accepts_complete one_way _ (made_unambiguous 7 9))) as [c Hc];
    [apply made_complete; vm_compute; discriminate|].
  exists c. split; [exact Hc|].
  pose proof (created_list one_way _ c (made_unambiguous 7 9) Hc) as Hl. split.
  - apply (Hl SBase "GetCode"%string); [cbn; tauto|]. apply (made_says 7 9 SBase "GetCode"%string).
    cbn; tauto.
  - apply (Hl SElrond "AsyncCallbackGasLock"%string); [cbn; tauto|].
    apply (made_says 7 9 SElrond "AsyncCallbackGasLock"%string). cbn; tauto.
Qed.

(** After any history of proposed schedules the virtual machine charges the
    prices of the last complete one (of the first if none was), for its own
    functions and for the instructions of contracts alike. *)
Theorem C65_history o1 o2 m0 h ms os :
  NewArwenVM o1 o2 m0 = Some h ->
  unambiguous m0 -> Forall unambiguous ms -> length os = length ms ->
  exists g, governs m0 ms g /\ (forall g', governs m0 ms g' -> g' = g) /\
    let h' := fold_left (fun h p => GasScheduleChange (fst (fst p)) (snd (fst p)) (snd p) h)
                (combine os ms) h in
    price_list (fun s f => field (gc_section (ph_costs h') s) f) g /\
    opcode_table (ph_opcodes h') g.
Proof.
  intros Hn Hu Hms Hl.
  destruct (history os h m0 Hu ms Hms Hl (ex_intro _ o1 (ex_intro _ o2 Hn))) as (g & Hg & H).
  exists g. split; [exact Hg|]. split; [|exact H].
  intros g' Hg'. exact (governs_unique m0 ms g' g Hg' Hg).
Qed.
Print Assumptions C65_history.

Example C65_history_example :
  is_Some (NewArwenVM one_way other_way (MakeGasMap 1 1)) /\
  Forall unambiguous [MakeGasMap 2 2; MakeGasMap 0 3] /\
  governs (MakeGasMap 1 1) [MakeGasMap 2 2; MakeGasMap 0 3] (MakeGasMap 2 2).
Proof.
  split; [|split].
  - apply new_host; [apply made_unambiguous|]. apply made_complete; vm_compute; discriminate.
  - repeat (apply Forall_cons; split; [apply made_unambiguous|]). apply Forall_nil. exact I.
  - apply (governs_old _ [MakeGasMap 2 2] (MakeGasMap 0 3)).
    + intros H. destruct (H SBase "GetCode"%string ltac:(cbn; tauto)) as (v & v' & Hs & Hf & Hn).
      assert (Hv : v = 0).
      { apply (made_unambiguous 0 3 SBase "GetCode"%string); [cbn; tauto|exact Hs|].
        apply (made_says 0 3 SBase "GetCode"%string). cbn; tauto. }
      cbn [fits] in Hf. congruence.
    + apply (governs_new _ [] (MakeGasMap 2 2)). apply made_complete; vm_compute; discriminate.
Qed.

(** Every price in force is a positive number of its type; in particular so is
    every price the functions of the virtual machine charge, which is what the
    theorems about gas suppose of the schedule (env_ok). *)
Theorem C65_prices o m c : typed_map m -> CreateGasConfig o m = Some c ->
  (forall s f, In f (section_fields s) -> 0 < field (gc_section c s) f <= max_u64) /\
  (forall f, In f (section_fields SOpcode) -> field (gc_opcode c) f < 4294967296) /\
  (forall x : cost, 0 < field (gc_section c (fst (entry x))) (snd (entry x)) <= max_u64).
Proof.
  intros Ht Hc. split; [|split].
  - intros s f Hf. exact (proj1 (accepted_bounds o m c s f Ht Hc Hf)).
  - intros f Hf. exact (proj2 (accepted_bounds o m c SOpcode f Ht Hc Hf) eq_refl).
  - intros x. exact (proj1 (accepted_bounds o m c _ _ Ht Hc (entry_listed x))).
Qed.
Print Assumptions C65_prices.

Example C65_prices_example :
  typed_map (MakeGasMap 7 9) /\ is_Some (CreateGasConfig other_way (MakeGasMap 7 9)).
Proof.
  split; [apply made_typed; unfold in_u64, max_u64; lia|].
  apply accepts_complete; [apply made_unambiguous|apply made_complete; vm_compute; discriminate].
Qed.

(** The schedules made for tests give every entry the number asked for. *)
Theorem C65_made value lock :
  value mod 4294967296 <> 0 -> lock <> 0 ->
  unambiguous (MakeGasMap value lock) /\ complete (MakeGasMap value lock) /\
  forall s f, In f (section_fields s) ->
    says (MakeGasMap value lock) s f
      (if String.eqb f "AsyncCallbackGasLock" then lock
       else if String.eqb f "LocalsUnmetered" then 100 else value).
Proof.
  intros Hv Hl. split; [apply made_unambiguous|]. split; [exact (made_complete value lock Hv Hl)|].
  exact (made_says value lock).
Qed.
Print Assumptions C65_made.

Example C65_made_example : 7 mod 4294967296 <> 0 /\ 9 <> 0.
Proof. split; vm_compute; discriminate. Qed.

(** The schedule shown by the host need not be the one in force: a proposal that
    is turned down is shown all the same. *)
Theorem C65_shown_refuted :
  exists m0 m h, NewArwenVM one_way one_way m0 = Some h /\
    unambiguous m0 /\ unambiguous m /\ ~ complete m /\ m <> m0 /\
    ph_costs (GasScheduleChange one_way one_way m h) = ph_costs h /\
    ph_opcodes (GasScheduleChange one_way one_way m h) = ph_opcodes h /\
    GetGasScheduleMap (GasScheduleChange one_way one_way m h) = m.
Proof.
  exists (MakeGasMap 1 1), ∅.
  destruct (new_host one_way one_way (MakeGasMap 1 1) (made_unambiguous 1 1)) as [h E];
    [apply made_complete; vm_compute; discriminate|].
  exists h.
  assert (Hno : forall s f v, ~ says ∅ s f v).
  { intros s f v (sec & H & _). destruct s; vm_compute in H; discriminate H. }
  split; [exact E|]. split; [apply made_unambiguous|].
  split; [intros s f v1 v2 _ H1; destruct (Hno s f v1 H1)|].
  split; [intros H; destruct (H SBase "GetCode"%string ltac:(cbn; tauto)) as (v & v' & Hs & _);
          exact (Hno _ _ _ Hs)|].
  split; [intros H; apply (f_equal (fun m : gas_map => bool_decide (is_Some (m !! "BuiltInCost"%string)))) in H;
          vm_compute in H; discriminate|].
  unfold GasScheduleChange.
  destruct (CreateGasConfig one_way ∅) as [c|] eqn:Ec; [vm_compute in Ec; discriminate|].
  split; [reflexivity|]. split; reflexivity.
Qed.
Print Assumptions C65_shown_refuted.

(** The price of an instruction keeps only its low 32 bits, silently. *)
Theorem C65_wide_refuted :
  says (with_price SOpcode "Nop" 4294967301) SOpcode "Nop" 4294967301 /\
  exists c, CreateGasConfig one_way (with_price SOpcode "Nop" 4294967301) = Some c /\
    field (gc_opcode c) "Nop" = 5 /\ nth_error (ToOpcodeCostsArray (gc_opcode c)) 1 = Some 5.
Proof.
  split.
  - eexists. split; [apply lookup_insert|]. left. apply lookup_insert.
  - destruct (created_field one_way (with_price SOpcode "Nop" 4294967301) SOpcode "Nop" 5)
      as (c & Hc & Hv); [cbn; tauto|vm_compute; reflexivity|vm_compute; reflexivity|].
    exists c. split; [exact Hc|]. split; [exact Hv|].
    unfold ToOpcodeCostsArray. rewrite table_is. cbn [opcodes map nth_error]. f_equal. exact Hv.
Qed.
Print Assumptions C65_wide_refuted.

(** A schedule that gives one entry twice, in other letters, is taken, and its
    price depends on the order in which the map is visited: two nodes, or the two
    readings of one node, can charge different prices. *)
Theorem C65_twice_refuted :
  exists c1 c2, CreateGasConfig one_way twice = Some c1 /\ CreateGasConfig other_way twice = Some c2 /\
    field (gc_base c1) "StorePerByte" <> field (gc_base c2) "StorePerByte".
Proof.
  destruct (created_field one_way twice SBase "StorePerByte"
    (decode_field one_way (sec_of twice SBase) "StorePerByte")) as (c1 & Hc1 & Hv1);
    [cbn; tauto|vm_compute; reflexivity|reflexivity|].
  destruct (created_field other_way twice SBase "StorePerByte"
    (decode_field other_way (sec_of twice SBase) "StorePerByte")) as (c2 & Hc2 & Hv2);
    [cbn; tauto|vm_compute; reflexivity|reflexivity|].
  exists c1, c2. split; [exact Hc1|]. split; [exact Hc2|].
  cbn [gc_section] in Hv1, Hv2. rewrite Hv1, Hv2. vm_compute. discriminate.
Qed.
Print Assumptions C65_twice_refuted.
