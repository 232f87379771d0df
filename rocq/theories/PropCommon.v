(** Concrete platforms and graphs used by the examples beside the property theorems. *)
From Verif Require Import Base HashIter F64 Numeric Adj Sq Standard Compressed Spec Api
  AdjProofs GraphProofs ApproxProofs.

(** A 64-bit platform with overflow checks that grants buffers of up to 2^40 bytes, and
    the same in the release profile. *)
Definition plat64 : platform := Platform (2 ^ 64 - 1) true (fun n => n <=? 2 ^ 40).
Definition plat64r : platform := Platform (2 ^ 64 - 1) false (fun n => n <=? 2 ^ 40).
(** A 16-bit platform. *)
Definition plat16 : platform := Platform (2 ^ 16 - 1) true (fun n => n <=? 2 ^ 12).

Lemma plat64_wf : wf_platform plat64.
Proof.
  constructor; simpl usize_max; simpl can_alloc; [by vm_compute|by vm_compute|].
  intros n Hn. apply N.leb_le in Hn. etransitivity; [apply N.mul_le_mono_l, Hn|]. by vm_compute.
Qed.

Lemma plat64r_wf : wf_platform plat64r.
Proof.
  constructor; simpl usize_max; simpl can_alloc; [by vm_compute|by vm_compute|].
  intros n Hn. apply N.leb_le in Hn. etransitivity; [apply N.mul_le_mono_l, Hn|]. by vm_compute.
Qed.

Lemma plat16_wf : wf_platform plat16.
Proof.
  constructor; simpl usize_max; simpl can_alloc; [by vm_compute|by vm_compute|].
  intros n Hn. apply N.leb_le in Hn. etransitivity; [apply N.mul_le_mono_l, Hn|]. by vm_compute.
Qed.

(** A history with growth, a star, a self loop, a deletion and an isolated vertex. *)
Definition sample_ops : list gop :=
  [OpAddEdge 0 1; OpAddEdge 1 2; OpAddVertex 4 (Some [0; 1; 4]); OpDeleteEdge 0 1;
   OpAddVertex 8 None].
Definition sample_dir : graph := run false sample_ops.
Definition sample_und : graph := run true sample_ops.

Definition op_u64b (op : gop) : bool :=
  match op with
  | OpAddVertex v ts => (v <? two64) && forallb (fun t => t <? two64) (default [] ts)
  | OpAddEdge u v | OpDeleteEdge u v => (u <? two64) && (v <? two64)
  end.

Lemma reach_runb p und ops : forallb op_u64b ops = true -> reach p (run und ops).
Proof.
  intros H. apply reach_run. apply Forall_forall. intros op Hop.
  rewrite forallb_forall in H. apply elem_of_list_In, H in Hop.
  destruct op as [v ts|u v|u v]; simpl in Hop; apply andb_true_iff in Hop as [H1 H2];
    apply N.ltb_lt in H1; (split; [done|]); [|by apply N.ltb_lt in H2..].
  apply Forall_forall. intros t Ht. rewrite forallb_forall in H2.
  apply elem_of_list_In, H2 in Ht. by apply N.ltb_lt in Ht.
Qed.

Lemma sample_dir_reach p : reach p sample_dir.
Proof. by apply reach_runb. Qed.
Lemma sample_und_reach p : reach p sample_und.
Proof. by apply reach_runb. Qed.

(** Examples about returned values: computing is enough. *)
Lemma ret_ex {A} (x : outcome A) (P : A -> Prop) :
  match x with Ret a => P a | _ => False end -> exists a, x = Ret a /\ P a.
Proof. destruct x; [eauto|done..]. Qed.

Lemma ok_ex {A} (x : result A) (P : A -> Prop) :
  match x with Ok a => P a | _ => False end -> exists a, x = Ok a /\ P a.
Proof. destruct x; [eauto|done..]. Qed.

Lemma ret_ok_ex {A} (x : outcome (result A)) (P : A -> Prop) :
  match x with Ret (Ok a) => P a | _ => False end -> exists a, x = Ret (Ok a) /\ P a.
Proof. destruct x as [[]| |]; [eauto|done..]. Qed.
