(** Two wrong choices: a value that is not the best one for the stream, and a symbol that is not that of the only run. *)
From Coq Require Import Permutation.
From Verif Require Import Base Simd Spec Spec2 ExtModel PktModel Rle8Model LeModel LeSpec LeTable LeEnc LeWorth LeThm LutModel SlModel ShModel SaveSpec DomSpec.

(** ** Low entropy: a run at the end counts for one piece but takes several *)

(** Three runs of [r] times 1, each with a 3 behind it, four times 1 and then only 2. *)
Definition late (r : Z) : mem := fun x => if x <? 0 then 0 else if x <? 3 * (r + 1) then (if x mod (r + 1) =? r then 3 else 1) else if x <? 3 * (r + 1) + 4 then 1 else 2.
Definition late_n (r : Z) : Z := 3 * (r + 1) + 4 + 3 * (r + 1).
Lemma late_byte r : byte_mem (late r).
Proof. intros x. unfold late, is_byte. repeat match goal with |- context [if ?c then _ else _] => destruct c end; lia. Qed.

(** The same table, but only 1 run length coded. *)
Definition only1 (L : Z) (In : mem) (n : Z) : leinfo := let i := le_info L true In n in mkLi (li_syms i) (fun b => b =? 1) (li_count i).
Definition other_stream (L : Z) (In : mem) (n : Z) : list Z :=
  match le_with_info L (only1 L In n) In n n with
  | Some (Some body) => le32 (8 + len (write_info (only1 L In n)) + len body) ++ le32 n ++ write_info (only1 L In n) ++ body
  | _ => []
  end.
Lemma other_restores L In n c : L = 255 \/ L = 32 -> byte_mem In -> 1 <= n <= max_in -> 0 < len (other_stream L In n) < 2 ^ 32 -> RestoresI false (le_decompress L c) 0 (other_stream L In n) In n.
Proof.
  intros HL HIn Hn Hlen. unfold other_stream in *. set (info := only1 L In n) in *.
  assert (HI : InfoOk info) by (pose proof (le_info_ok L true In n) as HK; exact HK).
  destruct (syms_inverse info HI) as (stc & Hstc).
  destruct (le_with_info_ok L info stc In n n HL HI Hstc HIn ltac:(unfold max_in in Hn; lia) ltac:(lia)) as (body & E & HS).
  rewrite E in *. rewrite !len_app, !len_le32 in Hlen. apply le_decompress_ok with (stc := stc); try assumption; [|lia].
  exists 0. split; [unfold is_byte; lia|reflexivity].
Qed.

Definition CodesOnly (out : list Z) (v : Z) : Prop := forall b, is_byte b -> (Coded out b <-> b = v).
Definition codes_only (out : list Z) (v : Z) : bool := forallb (fun b => Bool.eqb (Z.testbit (nth (Z.to_nat (8 + b / 8)) out 0) (b mod 8)) (b =? v)) range256.
Lemma codes_only_ok out v : codes_only out v = true -> CodesOnly out v.
Proof.
  unfold codes_only. rewrite forallb_forall. intros H b Hb. specialize (H b (proj2 (in_range256 b) Hb)). apply Bool.eqb_prop in H. unfold Coded. rewrite H. apply Z.eqb_eq.
Qed.

Definition coded_out (r : cres) : list Z := match r with COk o => o | _ => [] end.
Lemma late_facts L : L = 255 \/ L = 32 ->
  let In := late (L - 1) in let n := late_n (L - 1) in let out := coded_out (le_compress L true false false In n (n + 297)) in
  let r := other_stream L In n in le_compress L true false false In n (n + 297) = COk out /\ codes_only out 2 = true /\ codes_only r 1 = true /\ len r < len out /\ 0 < len r < 2 ^ 32.
Proof. intros [-> | ->]; vm_compute; repeat split. Qed.

(** ** The run of zeros that is not seen *)
Definition zeros : mem := fun x => if x =? 0 then 1 else if (0 <? x) && (x <=? 20) then 5 else 0.
Lemma zeros_byte : byte_mem zeros.
Proof. intros x. unfold zeros, is_byte. repeat match goal with |- context [if ?c then _ else _] => destruct c end; lia. Qed.
Lemma zeros_mostly : MostlyRun zeros 421 0 21 400.
Proof. split; [|lia]. split; [lia|]. split; [lia|]. intros x Hx. unfold zeros. replace (x =? 0) with false by lia. replace (x <=? 20) with false by lia. now destruct (0 <? x). Qed.
Lemma zeros_single pk : exists out, s_compress pk false false zeros 421 1000 = COk out /\ nth 9 out 0 = 5 /\ 400 < len out.
Proof. destruct pk; (eexists; split; [vm_compute; reflexivity|]; split; vm_compute; reflexivity). Qed.
Lemma zeros_short c v : List.In c shcodecs -> shOne c = true -> exists out, sh_compress c v false false zeros 421 1000 = COk out /\ nth 8 out 0 = 5 /\ 400 < len out.
Proof.
  intros Hc Ho. assert (c = mkSh 1 false 0 true) as ->; [|destruct v; (eexists; split; [vm_compute; reflexivity|]; split; vm_compute; reflexivity)].
  unfold shcodecs in Hc. destruct Hc as [<-|Hc]; [reflexivity|]. exfalso. apply in_flat_map in Hc. destruct Hc as (SC & _ & [<-|Hc]); [discriminate|].
  apply in_flat_map in Hc. destruct Hc as (S & _ & [<-|[<-|[]]]); discriminate.
Qed.
