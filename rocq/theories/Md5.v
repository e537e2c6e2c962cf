(** * MD5 (RFC 1321), as used by django.db.backends.utils.truncate_name for the four
    digits that replace the end of a long name (hashlib.md5(name).hexdigest()[:4]). *)
From Coq Require Import NArith String Ascii List.
Import ListNotations.
Open Scope N_scope.

Definition w32 (x : N) : N := N.land x 4294967295.
Definition rotl (x s : N) : N := N.lor (w32 (N.shiftl x s)) (N.shiftr x (32 - s)).
Definition not32 (x : N) : N := N.lxor x 4294967295.
Definition md5_table : list (N * N) :=
  [(3614090360, 7); (3905402710, 12); (606105819, 17); (3250441966, 22); (4118548399, 7); (1200080426, 12); (2821735955, 17); (4249261313, 22);
   (1770035416, 7); (2336552879, 12); (4294925233, 17); (2304563134, 22); (1804603682, 7); (4254626195, 12); (2792965006, 17); (1236535329, 22);
   (4129170786, 5); (3225465664, 9); (643717713, 14); (3921069994, 20); (3593408605, 5); (38016083, 9); (3634488961, 14); (3889429448, 20);
   (568446438, 5); (3275163606, 9); (4107603335, 14); (1163531501, 20); (2850285829, 5); (4243563512, 9); (1735328473, 14); (2368359562, 20);
   (4294588738, 4); (2272392833, 11); (1839030562, 16); (4259657740, 23); (2763975236, 4); (1272893353, 11); (4139469664, 16); (3200236656, 23);
   (681279174, 4); (3936430074, 11); (3572445317, 16); (76029189, 23); (3654602809, 4); (3873151461, 11); (530742520, 16); (3299628645, 23);
   (4096336452, 6); (1126891415, 10); (2878612391, 15); (4237533241, 21); (1700485571, 6); (2399980690, 10); (4293915773, 15); (2240044497, 21);
   (1873313359, 6); (4264355552, 10); (2734768916, 15); (1309151649, 21); (4149444226, 6); (3174756917, 10); (718787259, 15); (3951481745, 21)].
(** One round: [i] is the step, [m] the sixteen words of the block. *)
Definition md5_step (m : list N) (st : N * (N * N * N * N)) (ks : N * N) : N * (N * N * N * N) :=
  let '(i, (a, b, c, d)) := st in
  let f := if i <? 16 then N.lor (N.land b c) (N.land (not32 b) d)
           else if i <? 32 then N.lor (N.land d b) (N.land (not32 d) c)
           else if i <? 48 then N.lxor b (N.lxor c d)
           else N.lxor c (N.lor b (not32 d)) in
  let g := if i <? 16 then i else if i <? 32 then (5 * i + 1) mod 16
           else if i <? 48 then (3 * i + 5) mod 16 else (7 * i) mod 16 in
  let x := w32 (a + f + fst ks + nth (N.to_nat g) m 0) in
  (i + 1, (d, w32 (b + rotl x (snd ks)), b, c)).
Definition md5_block (h : N * N * N * N) (m : list N) : N * N * N * N :=
  let '(a0, b0, c0, d0) := h in
  let '(_, (a, b, c, d)) := fold_left (md5_step m) md5_table (0, h) in
  (w32 (a0 + a), w32 (b0 + b), w32 (c0 + c), w32 (d0 + d)).
Fixpoint bytes_of (s : string) : list N := match s with EmptyString => [] | String c s' => N_of_ascii c :: bytes_of s' end.
Fixpoint le_bytes (n : nat) (x : N) : list N := match n with O => [] | S n' => N.land x 255 :: le_bytes n' (N.shiftr x 8) end.
Definition md5_pad (l : list N) : list N :=
  let n := N.of_nat (length l) in
  l ++ [128] ++ repeat 0 (N.to_nat ((119 - n mod 64) mod 64)) ++ le_bytes 8 (8 * n).
Fixpoint words (fuel : nat) (l : list N) : list N :=
  match fuel, l with
  | S k, a :: b :: c :: d :: l' => (a + 256 * b + 65536 * c + 16777216 * d) :: words k l'
  | _, _ => []
  end.
Fixpoint blocks (fuel : nat) (h : N * N * N * N) (l : list N) : N * N * N * N :=
  match fuel with
  | O => h
  | S k => match l with [] => h | _ => blocks k (md5_block h (firstn 16 l)) (skipn 16 l) end
  end.
Definition md5 (s : string) : N * N * N * N :=
  let l := md5_pad (bytes_of s) in
  blocks (length l) (1732584193, 4023233417, 2562383102, 271733878) (words (length l) l).
Definition hex_char (n : N) : ascii := ascii_of_N (if n <? 10 then 48 + n else 87 + n).
Fixpoint hex (l : list N) : string :=
  match l with [] => EmptyString | x :: l' => String (hex_char (N.shiftr x 4)) (String (hex_char (N.land x 15)) (hex l')) end.
Definition md5_hex (s : string) : string :=
  let '(a, b, c, d) := md5 s in hex (le_bytes 4 a ++ le_bytes 4 b ++ le_bytes 4 c ++ le_bytes 4 d).
(** names_digest(name, length=4). *)
Definition digest4 (s : string) : string := substring 0 4 (md5_hex s).

(** Test vectors of RFC 1321. *)
Example md5_empty : md5_hex "" = "d41d8cd98f00b204e9800998ecf8427e"%string.
Proof. vm_compute. reflexivity. Qed.
Example md5_abc : md5_hex "abc" = "900150983cd24fb0d6963f7d28e17f72"%string.
Proof. vm_compute. reflexivity. Qed.
Example md5_long : md5_hex "12345678901234567890123456789012345678901234567890123456789012345678901234567890" = "57edf4a22be3c955ac49da2e2107b67a"%string.
Proof. vm_compute. reflexivity. Qed.

Lemma digest4_length s : String.length (digest4 s) = 4%nat.
Proof. unfold digest4, md5_hex. destruct (md5 s) as [[[a b] c] d]. reflexivity. Qed.
