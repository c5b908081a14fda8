(** Streams of different inputs are different, and none is the beginning of another. *)
From Verif Require Import Base Spec Spec2 ArchSpec ArchThm ArchLib.

(** A memory with given bytes from address 1 on. *)
Definition at1 (l : list Z) : mem := fun k => nth (Z.to_nat (k - 1)) l 0.
Lemma at1_holds l : holds (at1 l) 1 l.
Proof. apply holds_intro. intros k Hk. unfold at1. f_equal. lia. Qed.

Lemma pieces_tell s t x y C p out out' rest rest' : PieceOk s x -> PieceOk t y -> a_dec x = a_dec y -> a_field x = a_field y ->
  a_comp x (a_In x) (a_n x) (a_cap x) = COk out -> a_comp y (a_In y) (a_n y) (a_cap y) = COk out' -> out ++ rest = out' ++ rest' ->
  holds C p (out ++ rest) -> 0 < p -> p + len out + 1024 < 2 ^ 64 ->
  out = out' /\ rest = rest' /\ slice (a_In x) 0 (a_n x) = slice (a_In y) 0 (a_n y).
Proof.
  intros (Hn & o & E & Hh & HR) (Hn' & o' & E' & Hh' & HR') Hd Hf Eo Eo' Heq HC Hp Hl. rewrite E in Eo. injection Eo as ->. rewrite E' in Eo'. injection Eo' as ->.
  assert (H1 : holds C p out) by (apply holds_app in HC; apply HC).
  assert (H2 : holds C p out') by (rewrite Heq in HC; apply holds_app in HC; apply HC).
  destruct (Hh C p H1) as [A1 A2]. destruct (Hh' C p H2) as [B1 B2]. rewrite <- Hf in B1, B2.
  assert (Hlen : len out = len out') by congruence. assert (Hnn : a_n x = a_n y) by congruence.
  assert (Ho : out = out' /\ rest = rest').
  { clear - Heq Hlen. unfold len in Hlen. apply Nat2Z.inj in Hlen. revert out' Heq Hlen. induction out as [|b l IH]; intros [|b' l'] Heq Hlen; cbn in *; try discriminate; auto.
    injection Heq as -> Heq. destruct (IH l' Heq ltac:(congruence)) as [-> ->]. auto. }
  destruct Ho as [<- <-]. split; [reflexivity|]. split; [reflexivity|]. unfold max_in in *.
  destruct (HR C p (len out) C 1 (a_n x) H1 Hp ltac:(lia) eq_refl ltac:(lia) ltac:(lia) ltac:(lia)) as (M1 & D1 & S1 & _).
  destruct (HR' C p (len out) C 1 (a_n x) H1 Hp ltac:(lia) eq_refl ltac:(lia) ltac:(lia) ltac:(lia)) as (M2 & D2 & S2 & _).
  rewrite <- Hd, D1 in D2. assert (EM : M1 = M2) by exact (f_equal (fun r => match r with DRet _ m => m | _ => M1 end) D2). rewrite <- S1, <- S2, EM, Hnn. reflexivity.
Qed.

Lemma stream_tells s t x y out rest : library_piece s x -> library_piece t y -> a_dec x = a_dec y -> a_field x = a_field y ->
  a_comp x (a_In x) (a_n x) (a_cap x) = COk out -> a_comp y (a_In y) (a_n y) (a_cap y) = COk (out ++ rest) -> len out < 2 ^ 63 ->
  rest = [] /\ slice (a_In x) 0 (a_n x) = slice (a_In y) 0 (a_n y).
Proof.
  intros Hx Hy Hd Hf E E' Hl.
  destruct (pieces_tell s t x y (at1 (out ++ rest)) 1 out (out ++ rest) rest [] (library_ok s x Hx) (library_ok t y Hy) Hd Hf E E') as (_ & H1 & H2);
    [now rewrite app_nil_r|apply at1_holds|lia|lia|]. auto.
Qed.

Lemma row_tells_at C : forall xs ys b b' rest rest' p, Forall (fun x => exists s, library_piece s x) xs -> Forall (fun y => exists s, library_piece s y) ys ->
  decoders xs = decoders ys -> packed xs b -> packed ys b' -> b ++ rest = b' ++ rest' -> holds C p (b ++ rest) -> 0 < p -> p + len b + 1024 < 2 ^ 64 ->
  rest = rest' /\ map (fun x => slice (a_In x) 0 (a_n x)) xs = map (fun y => slice (a_In y) 0 (a_n y)) ys.
Proof.
  induction xs as [|x xs IH]; intros [|y ys] b b' rest rest' p Fx Fy Hd Px Py Heq HC Hp Hl; try discriminate.
  - inversion Px; inversion Py; subst. cbn in Heq. auto.
  - inversion Fx as [|? ? (s & Hx) Fx']; inversion Fy as [|? ? (t & Hy) Fy']; subst. inversion Px as [|? ? o r E Px']; inversion Py as [|? ? o' r' E' Py']; subst.
    cbn [decoders map] in Hd. injection Hd as Hd1 Hd2 Hd3. rewrite <- !app_assoc in Heq. rewrite <- app_assoc in HC. rewrite len_app in Hl. pose proof (len_nonneg r). pose proof (len_nonneg o).
    destruct (pieces_tell s t x y C p o o' (r ++ rest) (r' ++ rest') (library_ok s x Hx) (library_ok t y Hy) Hd1 Hd2 E E' Heq HC Hp ltac:(lia)) as (<- & Hr & Hs).
    apply holds_app in HC. destruct HC as [_ HC].
    destruct (IH ys r r' rest rest' (p + len o) Fx' Fy' Hd3 Px' Py' Hr HC ltac:(lia) ltac:(lia)) as [H1 H2]. split; [exact H1|]. cbn [map]. now rewrite Hs, H2.
Qed.
Lemma row_tells xs ys b rest : Forall (fun x => exists s, library_piece s x) xs -> Forall (fun y => exists s, library_piece s y) ys ->
  decoders xs = decoders ys -> packed xs b -> packed ys (b ++ rest) -> len b < 2 ^ 63 ->
  rest = [] /\ map (fun x => slice (a_In x) 0 (a_n x)) xs = map (fun y => slice (a_In y) 0 (a_n y)) ys.
Proof.
  intros Fx Fy Hd Px Py Hl. apply (row_tells_at (at1 (b ++ rest)) xs ys b (b ++ rest) rest [] 1); auto; [now rewrite app_nil_r|apply at1_holds|lia|lia].
Qed.
