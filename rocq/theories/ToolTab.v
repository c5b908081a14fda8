(** Which functions the printed name of a codec stands for, and the table codecCallbacks. *)
From Coq Require Import String Ascii.
From Verif Require Import Base Spec ExtModel SlModel ToolTable ToolSpec ToolSel ToolLib ToolRun.
From Verif Require ShModel.
Open Scope string_scope.
Open Scope Z_scope.

(** *** Specification: the functions by the words of the name *)
Definition described (name : string) : option (cfn * dfn) :=
  let S := match bits_of name with Some k => k / 8 | None => 0 end in
  let unb := has "(Byte)" name in
  let packed := has "Packed" name in
  let sh := ShModel.mkSh S unb (lut_of name) (has "Single" name) in
  let sl := mkSl S unb (lut_of name) in
  let x := mkX S unb packed (unb && packed) in
  match mode_of name with
  | None => None
  | Some MLowEntropy => let L := if has "Short" name then 32 else 255 in Some (KLe L (has "Single" name), DLe L)
  | Some MMmtf => if has "MTF" name then Some (KMmtf (S =? 32), DMmtf (S =? 32)) else Some (KBit (S =? 2), DBit (S =? 2))
  | Some MSh => Some (KHs, DHs)
  | Some MRleMmtf => Some (KMz, DMz)
  | Some MExtreme =>
      if has "Short" name then Some (if has "Grdy" name then KGreedy sh else KSh sh, DSh sh)
      else if (lut_of name =? 3) || (lut_of name =? 7) then Some (KSl sl, DSl sl)
      else if S =? 1 then Some (if has "Single" name then KSingle packed else KMulti packed, D8 packed)
      else Some (KExt x, DExt x)
  end.

(** All functions there are: every configuration of every family. *)
Definition all_functions : list (cfn * dfn) :=
  [(KMulti false, D8 false); (KMulti true, D8 true); (KSingle false, D8 false); (KSingle true, D8 true)] ++
  map (fun c => (KExt c, DExt c)) xcodecs ++ map (fun c => (KSl c, DSl c)) slcodecs ++
  map (fun c => (KSh c, DSh c)) ShModel.shcodecs ++ map (fun c => (KGreedy c, DSh c)) ShModel.greedy_codecs ++
  [(KHs, DHs); (KMz, DMz); (KLe 255 false, DLe 255); (KLe 255 true, DLe 255); (KLe 32 false, DLe 32); (KLe 32 true, DLe 32);
   (KMmtf false, DMmtf false); (KMmtf true, DMmtf true); (KBit false, DBit false); (KBit true, DBit true)].

(** *** Proofs *)
Lemma xcfg_eq (a b : xcfg) : {a = b} + {a <> b}.
Proof. decide equality; try apply Bool.bool_dec; apply Z.eq_dec. Defined.
Lemma slcfg_eq (a b : slcfg) : {a = b} + {a <> b}.
Proof. decide equality; try apply Bool.bool_dec; apply Z.eq_dec. Defined.
Lemma shcfg_eq (a b : ShModel.shcfg) : {a = b} + {a <> b}.
Proof. decide equality; try apply Bool.bool_dec; apply Z.eq_dec. Defined.
Lemma cfn_eq (a b : cfn) : {a = b} + {a <> b}.
Proof. decide equality; try apply Bool.bool_dec; try apply Z.eq_dec; try apply xcfg_eq; try apply slcfg_eq; apply shcfg_eq. Defined.
Lemma dfn_eq (a b : dfn) : {a = b} + {a <> b}.
Proof. decide equality; try apply Bool.bool_dec; try apply Z.eq_dec; try apply xcfg_eq; try apply slcfg_eq; apply shcfg_eq. Defined.
Lemma pair_eq (a b : cfn * dfn) : {a = b} + {a <> b}.
Proof. decide equality; [apply dfn_eq|apply cfn_eq]. Defined.
Lemma opair_eq (a b : option (cfn * dfn)) : {a = b} + {a <> b}.
Proof. decide equality. apply pair_eq. Defined.

Lemma table_described c : codec_functions c = described (codec_name c).
Proof.
  assert (H : (if opair_eq (codec_functions c) (described (codec_name c)) then true else false) = true).
  { revert c. apply forall_codec. vm_compute. reflexivity. }
  destruct (opair_eq (codec_functions c) (described (codec_name c))); [assumption|discriminate].
Qed.

Lemma table_memcpy c : codec_functions c = None -> c = MemCopy.
Proof. destruct c; try reflexivity; intros H; vm_compute in H; discriminate. Qed.
Lemma table_memcpy_name : codec_functions MemCopy = None /\ codec_name MemCopy = "memcpy".
Proof. split; reflexivity. Qed.

Lemma table_function c fg : codec_functions c = Some fg -> List.In fg all_functions.
Proof.
  intros E. assert (H : (match codec_functions c with Some fg => if in_dec pair_eq fg all_functions then true else false | None => true end) = true).
  { clear E. revert c. apply forall_codec. vm_compute. reflexivity. }
  rewrite E in H. destruct (in_dec pair_eq fg all_functions); [assumption|discriminate].
Qed.
Lemma table_complete fg : List.In fg all_functions -> exists! c, codec_functions c = Some fg.
Proof.
  intros Hin.
  assert (H : forallb (fun fg => match filter (fun c => if opair_eq (codec_functions c) (Some fg) then true else false) all_codecs with [_] => true | _ => false end) all_functions = true)
    by (vm_compute; reflexivity).
  rewrite forallb_forall in H. specialize (H fg Hin). cbv beta in H.
  assert (K : forall c, List.In c (filter (fun c => if opair_eq (codec_functions c) (Some fg) then true else false) all_codecs) <-> codec_functions c = Some fg).
  { intros c. rewrite filter_In. split.
    - intros [_ E]. destruct (opair_eq (codec_functions c) (Some fg)); [assumption|discriminate].
    - intros E. split; [apply all_codecs_complete|]. destruct (opair_eq (codec_functions c) (Some fg)); [reflexivity|contradiction]. }
  destruct (filter _ all_codecs) as [|c [|d r]]; try discriminate. exists c. split; [apply K; now left|].
  intros d Hd. apply K in Hd. destruct Hd as [E|[]]. exact E.
Qed.
