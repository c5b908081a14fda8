(** The wire formats of the codecs with a table of recent symbols (names with 3symlut and
    7symlut) and of the short codecs (names ending in short) as grammars, without reference to any model. *)
From Verif Require Import Base Spec PktSpec.

(** ** Parts of both *)

(** A number [v] in a small field of values 0..[max]: the field, and bytes that come later.  The
    field values 0 and 1 say that 4 or 2 bytes hold the number. *)
Inductive Number (max v : Z) : Z -> list Z -> Prop :=
| Number_small : 2 <= v <= max -> Number max v v []
| Number_16 : 0 <= v < 2 ^ 16 -> Number max v 1 (le16 v)
| Number_32 : 0 <= v < 2 ^ 32 -> Number max v 0 (le32 v).

(** The table at the start of a stream of symbols of [S] bytes: [SC] entries of equal bytes. *)
Definition first_table (S SC : Z) : list (list Z) :=
  map (fun b => repeat b (Z.to_nat S)) (firstn (Z.to_nat SC) [0; 127; 255; 1; 126; 128; 254]).

(** [Recall S SC table k sym sb table']: index [k] and the bytes [sb] name the symbol [sym].  An
    index below the size of the table names an entry, which moves to the front; the index [SC] says
    that the symbol is given, and it replaces the last entry. *)
Inductive Recall (S SC : Z) (table : list (list Z)) : Z -> list Z -> list Z -> list (list Z) -> Prop :=
| Recall_known before sym after :
    table = before ++ sym :: after ->
    Recall S SC table (len before) sym [] (sym :: before ++ after)
| Recall_new sym :
    len sym = S -> Forall is_byte sym ->
    Recall S SC table SC sym sym (sym :: removelast table).

(** ** Codecs with a table *)

(** Bytes per symbol; runs of any number of bytes ("byte"); entries of the table, 3 or 7. *)
Record lutwire := mkLW { lwS : Z; lwByte : bool; lwSC : Z }.

(** Bits of the literal field; the count field has 7, the index the rest of 16. *)
Definition lwBits (w : lutwire) : Z := if lwSC w =? 3 then 7 else 6.

(** Length in bytes of the run whose count is [v]. *)
Definition lwRun (w : lutwire) (v : Z) : Z :=
  if lwByte w || (lwS w =? 1) then v + 1 else (v + 3 / lwS w - 2) * lwS w.

Definition lwHead (w : lutwire) (k fc fl : Z) : list Z :=
  le16 (k * 2 ^ (7 + lwBits w) + fc * 2 ^ lwBits w + fl).

(** Index, count [v] and number of literals in two bytes; the symbol if it is given; what did not
    fit of the count and of the number of literals (stored with an offset of 2). *)
Inductive LutPacket (w : lutwire) (table : list (list Z)) : list Z -> list Z -> list Z -> list (list Z) -> Prop :=
| LutPacket_intro k sym sb table' v fc ec lits fl el :
    Recall (lwS w) (lwSC w) table k sym sb table' ->
    Number 127 v fc ec -> v <> 0 -> 0 < lwRun w v ->
    Number (2 ^ lwBits w - 1) (len lits + 2) fl el ->
    LutPacket w table (lwHead w k fc fl ++ sb ++ ec ++ el) lits (repetition sym (lwRun w v)) table'.

(** A symbol that does not matter. *)
Definition AnySymbol (S SC k : Z) (sb : list Z) : Prop :=
  (0 <= k < SC /\ sb = []) \/ (k = SC /\ len sb = S /\ Forall is_byte sb).

(** The count 0 ends the stream after the literals, a 16 bit number of literals stored as 0 ends it
    at once. *)
Inductive LutEnd (w : lutwire) (table : list (list Z)) : list Z -> list Z -> Prop :=
| LutEnd_none k sb v fc ec :
    AnySymbol (lwS w) (lwSC w) k sb -> Number 127 v fc ec ->
    LutEnd w table (lwHead w k fc 1 ++ sb ++ ec ++ le16 0) []
| LutEnd_lits k sb fc ec lits fl el :
    AnySymbol (lwS w) (lwSC w) k sb -> Number 127 0 fc ec ->
    Number (2 ^ lwBits w - 1) (len lits + 2) fl el ->
    LutEnd w table ((lwHead w k fc fl ++ sb ++ ec ++ el) ++ lits) lits.

(** Size of the data, size of the stream, packets.  [n] bytes of [data] are announced. *)
Definition LutStream (w : lutwire) (n : Z) (out data : list Z) : Prop :=
  exists body,
    out = le32 n ++ le32 (8 + len body) ++ body /\ 1 <= n < 2 ^ 32 /\ n <= len data /\ 8 + len body < 2 ^ 32 /\
    Body (LutPacket w) (LutEnd w) (first_table (lwS w) (lwSC w)) body data.

(** ** Short codecs *)

(** Bytes per symbol; "byte"; entries of the table (7, 3, 1, or 0: no table); one symbol for the
    whole stream. *)
Record shortwire := mkSW { swS : Z; swByte : bool; swSC : Z; swOne : bool }.

(** Bits of the index, of the small count field and of the small literal field: one byte. *)
Definition swI (w : shortwire) : Z := if swSC w =? 7 then 3 else if swSC w =? 3 then 2 else if swSC w =? 1 then 1 else 0.
Definition swC (w : shortwire) : Z := if swSC w =? 7 then 2 else if swSC w =? 0 then 4 else 3.
Definition swL (w : shortwire) : Z := 8 - swI w - swC w.
(** Bits of the literal field in three bytes; the count has the rest. *)
Definition swL3 (w : shortwire) : Z := if swSC w =? 7 then 9 else if swSC w =? 3 then 10 else 11.
Definition swC3 (w : shortwire) : Z := 16 + swL w - swL3 w.

Definition swMin (w : shortwire) : Z := if (swSC w =? 0) && negb (swOne w) then 2 + swS w else 2.
Definition swRun (w : shortwire) (v : Z) : Z :=
  if swByte w || (swS w =? 1) then v + swMin w - 2 else (v + swMin w / swS w - 2) * swS w.

(** Three bytes, most significant first. *)
Definition be24 (v : Z) : list Z := [v / 65536; v / 256 mod 256; v mod 256].

(** Small fields: count [v], [l] literals.  Three bytes, marked by the largest value in the small
    count field: larger fields for both, then what did not fit. *)
Inductive ShortHead (w : shortwire) (k v l : Z) : list Z -> Prop :=
| ShortHead_1 :
    2 <= v <= 2 ^ swC w -> 0 <= l < 2 ^ swL w ->
    ShortHead w k v l [k * 2 ^ (swC w + swL w) + (v - 2) * 2 ^ swL w + l]
| ShortHead_3 fc ec fl el :
    Number (2 ^ swC3 w - 1) v fc ec -> Number (2 ^ swL3 w - 1) (l + 2) fl el ->
    ShortHead w k v l
      (be24 ((k * 2 ^ swC w + (2 ^ swC w - 1)) * 2 ^ (swC3 w + swL3 w) + fc * 2 ^ swL3 w + fl) ++ ec ++ el).

(** The symbol: the one of the whole stream [sym0]; always given; or as in the other codecs. *)
Inductive ShortSymbol (w : shortwire) (sym0 : Z) (table : list (list Z)) : Z -> list Z -> list Z -> list (list Z) -> Prop :=
| ShortSymbol_one : swOne w = true -> ShortSymbol w sym0 table 0 [sym0] [] table
| ShortSymbol_given sym :
    swOne w = false -> swSC w = 0 -> len sym = swS w -> Forall is_byte sym ->
    ShortSymbol w sym0 table 0 sym sym table
| ShortSymbol_table k sym sb table' :
    swOne w = false -> swSC w <> 0 -> Recall (swS w) (swSC w) table k sym sb table' ->
    ShortSymbol w sym0 table k sym sb table'.

Inductive ShortPacket (w : shortwire) (sym0 : Z) (table : list (list Z))
    : list Z -> list Z -> list Z -> list (list Z) -> Prop :=
| ShortPacket_intro k sym sb table' v lits h :
    ShortSymbol w sym0 table k sym sb table' ->
    ShortHead w k v (len lits) h -> v <> 0 -> 0 < swRun w v ->
    ShortPacket w sym0 table (h ++ sb) lits (repetition sym (swRun w v)) table'.

(** The end as in the other codecs.  If it is marked by the number of literals, the reader stops
    before the symbol, which may be cut off. *)
Inductive ShortEnd (w : shortwire) (sym0 : Z) (table : list (list Z)) : list Z -> list Z -> Prop :=
| ShortEnd_none k v fc ec cut :
    0 <= k <= swSC w -> Number (2 ^ swC3 w - 1) v fc ec -> len cut <= swS w -> Forall is_byte cut ->
    ShortEnd w sym0 table
      (be24 ((k * 2 ^ swC w + (2 ^ swC w - 1)) * 2 ^ (swC3 w + swL3 w) + fc * 2 ^ swL3 w + 1) ++ ec ++ le16 0 ++ cut) []
| ShortEnd_lits k sb lits h :
    ShortHead w k 0 (len lits) h ->
    (if swOne w then k = 0 /\ sb = [] else AnySymbol (swS w) (swSC w) k sb) ->
    ShortEnd w sym0 table ((h ++ sb) ++ lits) lits.

(** Codecs with one symbol: it precedes the packets. *)
Definition ShortStream (w : shortwire) (n : Z) (out data : list Z) : Prop :=
  exists sym0 body,
    let inner := if swOne w then sym0 :: body else body in
    out = le32 n ++ le32 (8 + len inner) ++ inner /\ 1 <= n < 2 ^ 32 /\ n <= len data /\ 8 + len inner < 2 ^ 32 /\ is_byte sym0 /\
    Body (ShortPacket w sym0) (ShortEnd w sym0) (first_table (swS w) (swSC w)) body data.

(** ** Streams of one run *)

(** A new symbol, all numbers in four bytes where possible, no literals. *)
Definition lut_run_stream (w : lutwire) (sym : list Z) (n : Z) : list Z :=
  let body := (lwHead w (lwSC w) 0 2 ++ sym ++ le32 (n - 1)) ++ lwHead w 0 0 1 ++ le32 0 ++ le16 0 in
  le32 n ++ le32 (8 + len body) ++ body.

Definition short_run_stream (w : shortwire) (sym : list Z) (n : Z) : list Z :=
  let head k fl := be24 ((k * 2 ^ swC w + (2 ^ swC w - 1)) * 2 ^ (swC3 w + swL3 w) + 0 * 2 ^ swL3 w + fl) in
  let body := (head (swSC w) 2 ++ le32 (n - swMin w + 2) ++ sym) ++ head 0 1 ++ le32 0 ++ le16 0 in
  le32 n ++ le32 (8 + len body) ++ body.
