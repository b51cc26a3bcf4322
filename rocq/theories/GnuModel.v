(* Model of bglib/encoding/gnubgid.py.
   Outside the repository and modelled by assumption:
   - base64 of the Python 2.7 library ([b64encode], [a2b], after CPython's
     Modules/binascii.c);
   - tonic.BitsArray(66, endian='<'): a list of 66 bits, the low bit of each
     byte first (gnubgid_test.py, MatchProxyTest); slices read as integers with
     the first bit lowest; bool of a slice is "some bit set".  What it does with
     a value that does not fit its bits, or with a byte string that is not 9
     bytes long, is unknown: section variables, so every theorem holds whatever
     these do. *)
From Verif Require Import Py UtilModel BoardModel.

(* ---------- base64 ---------- *)
Definition alphabet : str := L "ABCDEFGHIJKLMNOPQRSTUVWXYZabcdefghijklmnopqrstuvwxyz0123456789+/".
Definition b64char (v : Z) : ascii := nth (Z.to_nat v) alphabet zero.
Fixpoint index_of (c : ascii) (l : str) (k : Z) : option Z :=
  match l with
  | [] => None
  | x :: l' => if Ascii.eqb x c then Some k else index_of c l' (k + 1)
  end.
Definition b64val (c : ascii) : option Z := index_of c alphabet 0.
Definition EQ : ascii := "="%char.

(* standard_b64encode of the bytes l *)
Fixpoint b64enc (l : list Z) : str :=
  match l with
  | [] => []
  | [a] => [b64char (a / 4); b64char (a mod 4 * 16); EQ; EQ]
  | [a; b] => [b64char (a / 4); b64char (a mod 4 * 16 + b / 16); b64char (b mod 16 * 4); EQ]
  | a :: b :: c :: r =>
      b64char (a / 4) :: b64char (a mod 4 * 16 + b / 16) :: b64char (b mod 16 * 4 + c / 64) ::
      b64char (c mod 64) :: b64enc r
  end.
Definition b64encode (s : str) : str := b64enc (map zord s).
(* s.rstrip('=') *)
Fixpoint lstrip_eq (s : str) : str :=
  match s with
  | c :: s' => if Ascii.eqb c EQ then lstrip_eq s' else s
  | [] => []
  end.
Definition rstrip_eq (s : str) : str := rev (lstrip_eq (rev s)).

(* binascii_find_valid(s, num): the (num+1)th character of the alphabet or '=' *)
Fixpoint find_valid (s : str) (num : nat) : option ascii :=
  match s with
  | [] => None
  | c :: s' =>
      if Ascii.eqb c EQ || (match b64val c with Some _ => true | None => false end)
      then match num with O => Some c | S n => find_valid s' n end
      else find_valid s' num
  end.
(* binascii_a2b_base64; None is "Incorrect padding".  Characters above 0x7f,
   white space and characters outside the alphabet are skipped. *)
Fixpoint a2b (s : str) (quad_pos leftchar leftbits : Z) : option str :=
  match s with
  | [] => if leftbits =? 0 then Some [] else None
  | c :: s' =>
      if Ascii.eqb c EQ then
        if (quad_pos <? 2) ||
           ((quad_pos =? 2) && negb (match find_valid s 1 with Some d => Ascii.eqb d EQ | None => false end))
        then a2b s' quad_pos leftchar leftbits
        else Some []
      else
        match b64val c with
        | None => a2b s' quad_pos leftchar leftbits
        | Some v =>
            let quad_pos := (quad_pos + 1) mod 4 in
            let leftchar := leftchar * 64 + v in
            let leftbits := leftbits + 6 in
            if 8 <=? leftbits then
              let leftbits := leftbits - 8 in
              match a2b s' quad_pos (leftchar mod 2 ^ leftbits) leftbits with
              | Some r => Some (ascii_of_N (Z.to_N (leftchar / 2 ^ leftbits mod 256)) :: r)
              | None => None
              end
            else a2b s' quad_pos leftchar leftbits
        end
  end.

(* ---------- position ---------- *)
(* gnubgid.py:17-39 *)
Record bctx := mkCtx { cbyte : Z; ccount : Z }.
Definition bc_write (c : bctx) (bit : Z) : bctx * bool :=
  let c' := mkCtx (Z.lor (cbyte c) (Z.shiftl bit (ccount c))) (ccount c + 1) in
  (c', ccount c' <? 8).
Definition bc_reset : bctx := mkCtx 0 0.
(* struct.pack('<B', byte) *)
Definition bc_pack (c : bctx) : ascii := ascii_of_N (Z.to_N (cbyte c)).
Definition bc_pad (c : bctx) : ascii :=
  bc_pack (fold_left (fun c _ => fst (bc_write c 0)) (zrange (ccount c) 8) c).

(* gnubgid.py:42-61; the generator's state: context, count, bytes so far *)
Record gst := mkG { gctx : bctx; gcount : Z; gout : str }.
(* if not byte.write(bit): count += 1; yield byte.pack() *)
Definition g_put (g : gst) (bit : Z) : gst :=
  match bc_write (gctx g) bit with
  | (c, true) => mkG c (gcount g) (gout g)
  | (c, false) => mkG bc_reset (gcount g + 1) (gout g ++ [bc_pack c])
  end.
Definition g_num (g : gst) (x : Z) : gst :=
  g_put (fold_left (fun g _ => g_put g 1) (zrange 0 x) g) 0.
Definition seq2bytes (xs : list Z) : str :=
  let g := fold_left g_num xs (mkG bc_reset 0 []) in
  let out := if negb (ccount (gctx g) =? 0) then gout g ++ [bc_pad (gctx g)] else gout g in
  (* while count < 9; pad() has reset the context *)
  out ++ map (fun _ => bc_pad bc_reset) (zrange (gcount g) 9).

(* gnubgid.py:64-74 *)
Fixpoint run_bits (n : Z) (bits : list bool) : list Z * Z :=
  match bits with
  | [] => ([], n)
  | true :: r => run_bits (n + 1) r
  | false :: r => let (l, m) := run_bits 0 r in (n :: l, m)
  end.
Definition byte_bits (c : ascii) : list bool := map (fun j => Z.testbit (zord c) j) (zrange 0 8).
Definition byts2seq (b : str) : list Z :=
  let (l, n) := run_bits 0 (flat_map byte_bits b) in l ++ [n].

(* gnubgid.py:85-92 *)
Definition twoside_encode (xs : list Z * list Z) : str := seq2bytes (fst xs ++ snd xs).
Definition twoside_decode (s : str) : list Z * list Z :=
  let xs := byts2seq s in (firstn 25 xs, firstn 25 (skipn 25 xs)).

(* gnubgid.py:94-96 *)
Definition encode_position (xs : list Z * list Z) : str := rstrip_eq (b64encode (twoside_encode xs)).

(* gnubgid.py:103-111 and 199-207: append '=' until it decodes *)
Fixpoint b64_loop (fuel : nat) (s : str) : res str :=
  match fuel with
  | O => Exc OutOfFuel
  | S f => match a2b s 0 0 0 with Some b => Ok b | None => b64_loop f (s ++ [EQ]) end
  end.
(* gnubgid.py:99-115 *)
Definition decode_position (fuel : nat) (s : str) : res (list Z * list Z) :=
  if existsb (Ascii.eqb EQ) s then Exc TypeError else
  let! b := b64_loop fuel s in
  let r := twoside_decode b in
  if negb (zlen (fst r) =? 25) || negb (zlen (snd r) =? 25) then Exc DecodeError else Ok r.

(* ---------- match ---------- *)
Definition int_of_bits (l : list bool) : Z := fold_right (fun b n => Z.b2z b + 2 * n) 0 l.
Definition bits_of_int (w v : Z) : list bool := map (fun j => Z.testbit v j) (zrange 0 w).
Definition slice {A} (b e : Z) (l : list A) : list A := firstn (Z.to_nat (e - b)) (skipn (Z.to_nat b) l).
(* bits to bytes, the low bit first, zero padded *)
Fixpoint bytes_of_bits (n : nat) (l : list bool) : str :=
  match n with
  | O => []
  | S n' => ascii_of_N (Z.to_N (int_of_bits (firstn 8 l))) :: bytes_of_bits n' (skipn 8 l)
  end.

Section Tonic.
(* BitsArray.set_shiftable(value, begin, end) for a value that does not fit *)
Variable overflow : list bool -> Z -> Z -> Z -> res (list bool).
(* BitsArray(66, binary=s, endian='<') where len(s) is not 9 *)
Variable odd_binary : str -> res (list bool).

Definition set_shiftable (d : list bool) (v b e : Z) : res (list bool) :=
  if (0 <=? v) && (v <? 2 ^ (e - b))
  then Ok (firstn (Z.to_nat b) d ++ bits_of_int (e - b) v ++ skipn (Z.to_nat e) d)
  else overflow d v b e.
(* gnubgid.py:124-127, 134-136, 142-148 *)
Definition set_int d v b e := set_shiftable d v b e.
Definition set_bool d (v : bool) b e := set_shiftable d (Z.b2z v) b e.
Definition set_pair d (v : Z * Z) b e :=
  let m := b + (e - b) / 2 in
  let! d := set_shiftable d (fst v) b m in set_shiftable d (snd v) m e.
(* gnubgid.py:128-129, 137-138, 150-156 *)
Definition get_int d b e : Z := int_of_bits (slice b e d).
Definition get_bool d b e : bool := existsb (fun x => x) (slice b e d).
Definition get_pair d b e : Z * Z :=
  let m := b + (e - b) / 2 in (int_of_bits (slice b m d), int_of_bits (slice m e d)).

(* gnubgid.py:183-184: a fresh proxy, and one read from bytes *)
Definition match_new : list bool := repeat false 66.
Definition match_read (s : str) : res (list bool) :=
  if zlen s =? 9 then Ok (firstn 66 (flat_map byte_bits s)) else odd_binary s.
(* gnubgid.py:189-190, 193-194 *)
Definition encode_match (d : list bool) : str := rstrip_eq (b64encode (bytes_of_bits 9 d)).
(* gnubgid.py:196-210 *)
Definition decode_match (fuel : nat) (s : str) : res (list bool) :=
  if existsb (Ascii.eqb EQ) s then Exc TypeError else
  let! b := b64_loop fuel s in match_read b.

(* gnubgid.py:213-224 with the index of 160-172 *)
Definition match_of_board (m : board) : res (list bool) :=
  let! d := set_int match_new (cube_in_logarithm m) 0 4 in
  let! d := set_int d (cube_owner m) 4 6 in
  let! d := set_int d (on_action m) 6 7 in
  let! d := set_bool d (crawford m) 7 8 in
  let! d := set_int d (game_state m) 8 11 in
  let! d := set_int d (on_inner_action m) 11 12 in
  let! d := set_bool d (doubled m) 12 13 in
  let! d := set_int d (resign_offer m) 13 15 in
  let! d := set_pair d (rolled m) 15 21 in
  let! d := set_int d (match_length m) 21 36 in
  set_pair d (score m) 36 66.
(* gnubgid.py:212-238 *)
Definition encode (m : board) : res (str * str) :=
  let! d := match_of_board m in
  let mid := encode_match d in
  let! p := if get_int d 6 7 =? YOU then Ok (snd (position m), fst (position m))
            else if get_int d 6 7 =? HIM then Ok (position m)
            else Exc AssertionError in
  Ok (encode_position p, mid).
(* gnubgid.py:243-253 *)
Definition board_of_match (d : list bool) (m : board) : board :=
  mkBoard (position m) (get_int d 0 4) (get_int d 4 6) (get_int d 6 7) (get_bool d 7 8)
    (get_int d 8 11) (get_int d 11 12) (get_bool d 12 13) (get_int d 13 15) (get_pair d 15 21)
    (get_int d 21 36) (get_pair d 36 66).
(* gnubgid.py:240-278; the model passed in is returned as it is left *)
Definition decode (fuel : nat) (m : board) (pid mid : str) : board * res unit :=
  match decode_match fuel mid with
  | Exc e => (m, Exc e)
  | Ok d =>
      let m := board_of_match d m in
      if (game_state m =? ON_GOING) && (match_length m =? 0) &&
         ((match_length m <? fst (score m)) || (match_length m <? snd (score m)))
      then (m, Exc InconsistentData)
      else
        match decode_position fuel pid with
        | Exc e => (m, Exc e)
        | Ok (on_action, opp) =>
            if get_int d 6 7 =? 0 then (set_position (opp, on_action) m, Ok tt)
            else if get_int d 6 7 =? 1 then (set_position (on_action, opp) m, Ok tt)
            else (m, Exc UndefinedTurn)
        end
  end.
End Tonic.
