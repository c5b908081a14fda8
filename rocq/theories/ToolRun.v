(** main.c l.693-1092: reading the file, benchmarking and testing the selected codecs, the exit code. *)
From Coq Require Import String Ascii.
From Verif Require Import Base Spec ExtModel LeModel MzModel FuzzModel PlatModel ToolTable ToolArgs ToolLib.
Open Scope Z_scope.

(** The functions of codecCallbacks[c], codec_funcs.h l.267-389. *)
Definition codec_functions (c : codec_t) : option (cfn * dfn) :=
  match callbacks c with
  | Some (e, d) => match identify_compress e, identify_decompress d with Some f, Some g => Some (f, g) | _, _ => None end
  | None => None
  end.

(** rle8_sh_bounds, rle_sh.c l.93-96. *)
Definition sh_bounds (n : Z) : Z := w32 (n + 13).
(** compressedBufferSize, l.722-729; mmtf_bounds n = n, mmtf.c l.28-31; rle8_mmtf256_compress_bounds is
    rle8_mmtf128_compress_bounds, rle8_mmtf.c l.34-37; both low entropy bounds are [le_bounds]. *)
Definition buffer_size (n : Z) : Z :=
  Z.max (Z.max (Z.max (Z.max (Z.max (Z.max (rle_compress_bounds n) n) (sh_bounds n)) (mz_bounds n)) (mz_bounds n)) (le_bounds n)) (le_bounds n).

(** What the program finds and does not decide.
    - [w_file]: the content and the size of the file, or that it cannot be opened.
    - [w_alloc], [w_read]: whether the allocations and fread succeed.
    - [w_memory]: the memory after the allocations; [w_U], [w_D], [w_K]: the buffers pUncompressedData,
      pDecompressedData and pCompressedData.
    - [w_more]: for a codec, how many repetitions more than asked for by --runs fit into the minimum time,
      compressing and decompressing.
    - [w_undef]: an uninitialised register of rle8_mmtf128_compress.
    - [w_fuzz]: the value of fuzz(sections, iterative), see FuzzModel.v; [None]: it does not return.
    Not modelled: times, printing, --analyze, and the allocations for --sd (which end the program with 1 if they
    fail). *)
Record world := mkWorld
  { w_file : option (mem * Z); w_alloc : bool; w_read : bool;
    w_memory : mem; w_U : Z; w_D : Z; w_K : Z;
    w_more : codec_t -> bool -> nat; w_undef : Z -> Z; w_fuzz : Z -> bool -> option bool }.

(** The loops l.828-887 and l.963-1027: at least one call; the loop is left when a call returns 0. *)
Fixpoint repeat_call (more : nat) (f : mem -> callres) (M : mem) : callres :=
  match f M with
  | CRet r M' => if r =? 0 then CRet 0 M' else match more with O => CRet r M' | S k => repeat_call k f M' end
  | x => x
  end.
(** Calls after the first: compressionRuns starts at -1, or at 0 without delays, and runs is at least 1. *)
Definition more_calls (s : settings) (w : world) (c : codec_t) (dec : bool) : nat :=
  (Z.to_nat (s_runs s + (if s_noDelays s then 0 else 1) - 1) + w_more w c dec)%nat.

(** memcpy of [k] bytes. *)
Definition memory_copy (M : mem) (dst src k : Z) : mem := store M dst (slice M src k).

(** The functions of the library, those of codecCallbacks under the flags [st]; none for memcpy. *)
Definition library := codec_t -> option (call * call).
Definition the_library (st : flags) (undef : Z -> Z) : library := fun c =>
  match codec_functions c with Some (f, g) => Some (lib_compress st undef f, lib_decompress st g) | None => None end.

(** The calls of l.832-842 and l.967-977.  The size of the file is a size_t, its lower 32 bits are passed on. *)
Definition call_compress (lib : library) (w : world) (size : Z) (c : codec_t) (M : mem) : callres :=
  match lib c with
  | Some (f, _) => f M (w_U w) (w32 size) (w_K w) (buffer_size (w32 size))
  | None => CRet (w32 size) (memory_copy M (w_K w) (w_U w) size)
  end.
Definition call_decompress (lib : library) (w : world) (size compressed : Z) (c : codec_t) (M : mem) : callres :=
  match lib c with
  | Some (_, g) => g M (w_K w) compressed (w_D w) (buffer_size (w32 size))
  | None => CRet (w32 size) (memory_copy M (w_D w) (w_K w) size)
  end.

(** Validate, l.1132-1219: memcmp. *)
Fixpoint same_bytes (M : mem) (p q : Z) (k : nat) : bool :=
  match k with O => true | S k' => (w8 (M p) =? w8 (M q)) && same_bytes M (p + 1) (q + 1) k' end.
Definition validate (M : mem) (p q size : Z) : bool := same_bytes M p q (Z.to_nat size).

Definition is_mtf256 (c : codec_t) : bool := codec_value c =? codec_value MultiMTF256.
Definition is_mtf (c : codec_t) : bool := (codec_value c =? codec_value MultiMTF128) || is_mtf256 c.

(** What happens to a codec, and the memory afterwards. *)
Inductive outcome := OkCodec | NoCompress | NoDecompress | NotEqual.
Inductive codec_result := CodecDone (x : outcome) (M : mem) | CodecFault | CodecHang.
(** One pass of l.803-1076; the memset of l.947 has size 0, as decompressedSize has just been set to 0. *)
Definition run_codec (lib : library) (s : settings) (w : world) (size : Z) (c : codec_t) (M : mem) : codec_result :=
  match repeat_call (more_calls s w c false) (call_compress lib w size c) M with
  | CFault => CodecFault
  | CHang => CodecHang
  | CRet k M =>
      if k =? 0 then CodecDone NoCompress M
      else
        let M := if s_test s || negb (s_noDelays s) then scramble M (w_K w) k (buffer_size (w32 size)) else M in
        match repeat_call (more_calls s w c true) (call_decompress lib w size k c) M with
        | CFault => CodecFault
        | CHang => CodecHang
        | CRet r M =>
            if r =? 0 then CodecDone NoDecompress M
            else if validate M (w_U w) (w_D w) size then CodecDone OkCodec M else CodecDone NotEqual M
        end
  end.

(** Whether main returns -1: l.908-931, l.1029-1045, l.1071-1075.  The flags are those the library has set. *)
Definition fails (st : flags) (s : settings) (c : codec_t) (x : outcome) : bool :=
  match x with
  | OkCodec => false
  | NoCompress =>
      if (negb (st FAvx) && is_mtf256 c) || (negb (st FSse2) && is_mtf c) then false else s_test s
  | NoDecompress => s_test s && negb (negb (st FSse2) && is_mtf c)
  | NotEqual => s_test s
  end.

Inductive result := Exit (code : Z) (M : mem) | Crash | Forever.
Fixpoint run_codecs (lib : library) (st : flags) (s : settings) (w : world) (size : Z) (cs : list codec_t) (M : mem) : result :=
  match cs with
  | [] => Exit 0 M
  | c :: cs =>
      match run_codec lib s w size c M with
      | CodecFault => Crash
      | CodecHang => Forever
      | CodecDone x M => if fails st s c x then Exit (-1) M else run_codecs lib st s w size cs M
      end
  end.

(** main, l.94-1092; [L]: the library; [m]: the machine; the memory of an exit without a run is the one at the start. *)
Definition main_with (L : flags -> library) (m : machine) (w : world) (argv : list string) : result :=
  match command_line m argv with
  | None => Exit 1 (w_memory w)
  | Some (_, s) =>
      if s_fuzz s then
        match (if s_fuzzIterative s then w_fuzz w 6 true else w_fuzz w 8 false) with
        | Some b => Exit (if b then 0 else 1) (w_memory w)
        | None => Forever
        end
      else
        match w_file w with
        | None => Exit 0 (w_memory w)
        | Some (file, size) =>
            if size <=? 0 then Exit 0 (w_memory w)
            else if negb (w_alloc w) then Exit 0 (w_memory w)
            else if negb (w_read w) then Exit 0 (w_memory w)
            else run_codecs (L (detect m (s_flags s))) (detect m (s_flags s)) s w size (selected (s_args s))
                   (store (w_memory w) (w_U w) (slice file 0 size))
        end
  end.
Definition main (m : machine) (w : world) : list string -> result := main_with (fun st => the_library st (w_undef w)) m w.
