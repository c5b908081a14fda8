(** The multi-byte encoder loop shared by rleX_Xsl_multibyte_encoder.h and
    rleX_Xsl_short_multibyte_encoder.h.  It is the loop of rleX_extreme_cpu_encode.h (same
    match, scalar and search phases, modelled in [ExtModel]) with the packet decision moved
    into a process_symbol function, which is a parameter here. *)
From Verif Require Import Base Simd Spec ExtModel.

(** [A]: what the codec remembers between packets. *)
Record estm (A : Type) := mkM
  { m_i : Z; m_count : Z; m_sym : list Z; m_last : Z; m_aux : A; m_out : list Z;
    m_goto : bool  (* next iteration entered by [goto continue_outer_loop] *) }.
Arguments mkM {A}. Arguments m_i {A}. Arguments m_count {A}. Arguments m_sym {A}.
Arguments m_last {A}. Arguments m_aux {A}. Arguments m_out {A}. Arguments m_goto {A}.

(** process_symbol: input, i, count, symbol, lastRLE, remembered state. *)
Definition procM (A : Type) := mem -> Z -> Z -> list Z -> Z -> A -> option (list Z * A).

(** The search phases of [ExtModel] only look at symbol size and UNBOUND. *)
Definition mcfg (S : Z) (unb : bool) : xcfg := mkX S unb false false.

Definition emitM {A} (proc : procM A) (In : mem) (st : estm A) : estm A :=
  match proc In (m_i st) (m_count st) (m_sym st) (m_last st) (m_aux st) with
  | Some (bytes, a) => mkM (m_i st) (m_count st) (m_sym st) (m_i st) a (m_out st ++ bytes) (m_goto st)
  | None => st
  end.

(** Start of the next run candidate: rleX_Xsl_multibyte_encoder.h l.300-338,
    rleX_Xsl_short_multibyte_encoder.h l.306-344. *)
Definition next_runM {A} (S : Z) (In : mem) (n : Z) (st : estm A) (i : Z) (found : bool) : estm A :=
  let sym := load In S i in
  if found then mkM (i + S * 2) (S * 2) sym (m_last st) (m_aux st) (m_out st) true
  else if (i + S <=? n) && eqb_bytes (load In S (i + S)) sym
  then mkM (i + S * 2) (S * 2) sym (m_last st) (m_aux st) (m_out st) false
  else mkM (i + 1) 0 sym (m_last st) (m_aux st) (m_out st) false.

(** From process_symbol to the end of the iteration. *)
Definition mb_second {A} (proc : procM A) (S : Z) (unb : bool) (v : simd) (In : mem) (n : Z) (st : estm A)
    (i count : Z) : estm A + option (estm A) :=
  let st1 := emitM proc In (mkM i count (m_sym st) (m_last st) (m_aux st) (m_out st) false) in
  match scan (mcfg S unb) v In n i with
  | Some (i', found) => inl (next_runM S In n st1 i' found)
  | None => inr None
  end.

(** One iteration: rleX_Xsl_multibyte_encoder.h l.82-339, rleX_Xsl_short_multibyte_encoder.h
    l.88-345. *)
Definition mb_step {A} (proc : procM A) (S : Z) (unb : bool) (v : simd) (In : mem) (n : Z) (st : estm A)
    : estm A + option (estm A) :=
  if (m_i st <? n) || m_goto st then
    match phase1 (mcfg S unb) v In n (mkE (m_i st) (m_count st) (m_sym st) (m_last st) [] [] false) with
    | Some (Second i count) => mb_second proc S unb v In n st i count
    | Some (Fall i count) =>
        match scalar_step (mcfg S unb) In n i count (m_sym st) with
        | inl (i', count') => inl (mkM i' count' (m_sym st) (m_last st) (m_aux st) (m_out st) false)
        | inr (i', count') => mb_second proc S unb v In n st i' count'
        end
    | None => inr None
    end
  else inr (Some st).

(** Last packet if worth it and the end marker, or end marker and literals. *)
Definition finishM {A} (proc : procM A) (term_none : list Z) (term_lits : Z -> list Z) (In : mem) (st : estm A) : list Z :=
  match proc In (m_i st) (m_count st) (m_sym st) (m_last st) (m_aux st) with
  | Some (bytes, _) => m_out st ++ bytes ++ term_none
  | None => m_out st ++ term_lits (m_i st - m_last st) ++ slice In (m_last st) (m_i st - m_last st)
  end.

(** Complement of the first symbol. *)
Definition not_first (S : Z) (In : mem) : list Z := map (fun b => 255 - b) (load In S 0).

Definition mb_body {A} (proc : procM A) (term_none : list Z) (term_lits : Z -> list Z)
    (S : Z) (unb : bool) (v : simd) (In : mem) (n : Z) (a0 : A) : option (list Z) :=
  match loop (mb_step proc S unb v In n) (mkM 0 0 (not_first S In) 0 a0 [] false) with
  | Some (Some st) => Some (finishM proc term_none term_lits In st)
  | _ => None
  end.
