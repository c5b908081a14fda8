(** C71: no aligned access is ever misplaced. *)
From Verif Require Import Base Simd Spec Spec2 SimdProof WrThm ExtModel LeModel AlSpec.

Definition onlySome {A} (r : option A) (x : A) : Prop := r = Some x.

Lemma copy_any W C p M q off : 0 < W -> memcpyW W C p M q off = anycopy W C p M q off.
Proof.
  intros HW. unfold memcpyW, anycopy. destruct (off <=? W); [reflexivity|].
  assert (K : forall pc qc N, al_ok W pc = true ->
    match loop (copy_step W C (w64 (q + off))) (pc, qc, N), loop (anycopy_step W C (w64 (q + off))) (pc, qc, N) with
    | Some r, Some x => onlySome r x | None, None => True | _, _ => False end).
  { intros pc qc N Ha.
    apply (loop_rel (copy_step W C (w64 (q + off))) (anycopy_step W C (w64 (q + off))) (fun s t => s = t /\ al_ok W (fst (fst s)) = true) onlySome).
    - intros [[p1 q1] N1] ? [<- H1]. cbn [fst] in H1. unfold copy_step, anycopy_step. destruct (q1 <? w64 (q + off)); [|reflexivity].
      rewrite H1. split; [reflexivity|]. cbn [fst]. now apply al_next.
    - now split. }
  destruct (p mod W =? 0) eqn:E.
  - rewrite !Z.add_0_r. specialize (K p q M E).
    destruct (loop (copy_step W C (w64 (q + off))) (p, q, M)) as [r|], (loop (anycopy_step W C (w64 (q + off))) (p, q, M)); try contradiction; [|reflexivity].
    red in K. now subst r.
  - replace (q + (p - p mod W + W - p)) with (q + (W - p mod W)) by lia. replace (p - p mod W + W) with (p + (W - p mod W)) by lia.
    specialize (K (p + (W - p mod W)) (q + (W - p mod W)) (vcopy W C p M q)).
    replace (p + (W - p mod W)) with (p - p mod W + W) in K at 1 by lia. specialize (K (al_round W p HW)).
    destruct (loop (copy_step W C (w64 (q + off))) (p + (W - p mod W), q + (W - p mod W), vcopy W C p M q)) as [r|],
      (loop (anycopy_step W C (w64 (q + off))) (p + (W - p mod W), q + (W - p mod W), vcopy W C p M q)); try contradiction; [|reflexivity].
    red in K. now subst r.
Qed.

Lemma set_any W b M q cnt : 0 < W -> memsetW W b M q cnt = anyset W b M q cnt.
Proof.
  intros HW. unfold memsetW, anyset. destruct (cnt <=? W); [reflexivity|].
  assert (K : forall qc N, al_ok W qc = true ->
    match loop (fill_step true W (fun _ => b) (w64 (q + cnt))) (qc, N), loop (anyset_step W b (w64 (q + cnt))) (qc, N) with
    | Some r, Some x => onlySome r x | None, None => True | _, _ => False end).
  { intros qc N Ha.
    apply (loop_rel (fill_step true W (fun _ => b) (w64 (q + cnt))) (anyset_step W b (w64 (q + cnt))) (fun s t => s = t /\ al_ok W (fst s) = true) onlySome).
    - intros [q1 N1] ? [<- H1]. cbn [fst] in H1. unfold fill_step, anyset_step. destruct (q1 <? w64 (q + cnt)); [|reflexivity].
      rewrite H1. cbn [negb orb]. split; [reflexivity|]. cbn [fst]. now apply al_next.
    - now split. }
  destruct (q mod W =? 0) eqn:E.
  - rewrite !Z.add_0_r. specialize (K q M E).
    destruct (loop (fill_step true W (fun _ => b) (w64 (q + cnt))) (q, M)) as [r|], (loop (anyset_step W b (w64 (q + cnt))) (q, M)); try contradiction; [|reflexivity].
    red in K. now subst r.
  - replace (q + (W - q mod W)) with (q - q mod W + W) by lia.
    specialize (K (q - q mod W + W) (vstore W (fun _ => b) M q) (al_round W q HW)).
    destruct (loop (fill_step true W (fun _ => b) (w64 (q + cnt))) (q - q mod W + W, vstore W (fun _ => b) M q)) as [r|],
      (loop (anyset_step W b (w64 (q + cnt))) (q - q mod W + W, vstore W (fun _ => b) M q)); try contradiction; [|reflexivity].
    red in K. now subst r.
Qed.

Lemma run_any b M q count : le_fillS b M q count = anyrun b M q count.
Proof.
  unfold le_fillS, anyrun. destruct (count <? 16); [reflexivity|].
  assert (K : forall q1 r1 N, al_ok 16 q1 = true ->
    match loop (fillS_step b) (q1, r1, N), loop (anyrun_step b) (q1, r1, N) with
    | Some r, Some x => onlySome r x | None, None => True | _, _ => False end).
  { intros q1 r1 N Ha.
    apply (loop_rel (fillS_step b) (anyrun_step b) (fun s t => s = t /\ al_ok 16 (fst (fst s)) = true) onlySome).
    - intros [[q2 r2] N2] ? [<- H1]. cbn [fst] in H1. unfold fillS_step, anyrun_step. destruct (15 <? r2); [|reflexivity].
      rewrite H1. split; [reflexivity|]. cbn [fst]. apply al_next; [lia|exact H1].
    - now split. }
  destruct (q mod 16 =? 0) eqn:E.
  - rewrite !Z.add_0_r, Z.sub_0_r. specialize (K q count M E).
    destruct (loop (fillS_step b) (q, count, M)) as [r|], (loop (anyrun_step b) (q, count, M)) as [[[q2 r2] N2]|]; try contradiction; [|reflexivity].
    red in K. subst r. now destruct (r2 =? 0).
  - replace (count - (q - q mod 16 + 16 - q)) with (count - (16 - q mod 16)) by lia. replace (q + (16 - q mod 16)) with (q - q mod 16 + 16) by lia.
    specialize (K (q - q mod 16 + 16) (count - (16 - q mod 16)) (vstore 16 (fun _ => b) M q) (al_round 16 q eq_refl)).
    destruct (loop (fillS_step b) (q - q mod 16 + 16, count - (16 - q mod 16), vstore 16 (fun _ => b) M q)) as [r|],
      (loop (anyrun_step b) (q - q mod 16 + 16, count - (16 - q mod 16), vstore 16 (fun _ => b) M q)) as [[[q2 r2] N2]|]; try contradiction; [|reflexivity].
    red in K. subst r. now destruct (r2 =? 0).
Qed.

Lemma anyplace_rt comp bound decs slack : RoundTrip comp bound decs slack -> AnyPlace comp bound decs.
Proof.
  intros H In n cap HB Hn Hc. destruct (H In n cap HB Hn Hc) as (out & E & _ & _ & HR). exists out. split; [exact E|].
  intros d1 d2 C1 p1 i1 M1 o1 c1 C2 p2 i2 M2 o2 c2 D1 D2 A1 A2 A3 A4 A5 A6 A7 B1 B2 B3 B4 B5 B6 B7.
  destruct (HR d1 D1 C1 p1 i1 M1 o1 c1 A1 A2 A3 A4 A5 A6 A7) as (N1 & E1 & F1 & _).
  destruct (HR d2 D2 C2 p2 i2 M2 o2 c2 B1 B2 B3 B4 B5 B6 B7) as (N2 & E2 & F2 & _).
  exists N1, N2. repeat split; congruence.
Qed.
Lemma anyplace_rti exact P comp bound decs slack : RoundTripI exact P comp bound decs slack -> AnyPlaceI exact P comp bound decs.
Proof.
  intros H In n cap HB Hn HP Hc. destruct (H In n cap HB Hn HP Hc) as (out & E & _ & _ & HR). exists out. split; [exact E|].
  intros d1 d2 C1 p1 i1 M1 o1 c1 C2 p2 i2 M2 o2 c2 D1 D2 A1 A2 A3 A4 A5 A6 A7 B1 B2 B3 B4 B5 B6 B7.
  destruct (HR d1 D1 C1 p1 i1 M1 o1 c1 A1 A2 A3 A4 A5 A6 A7) as (N1 & E1 & F1 & _).
  destruct (HR d2 D2 C2 p2 i2 M2 o2 c2 B1 B2 B3 B4 B5 B6 B7) as (N2 & E2 & F2 & _).
  exists N1, N2. repeat split; congruence.
Qed.
