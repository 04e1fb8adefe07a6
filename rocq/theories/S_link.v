(** * S_link: how far a hyperlink object reaches, by the lengths it announces (MS-OSHARED 2.3.7). *)
From Verif Require Import GoBase S_cfb.

Inductive extent :=
| Until (e : Z)          (* everything announced lies before position e *)
| Refused                (* an unknown version or kind of target *)
| Overrun.               (* an announced length goes beyond the record *)
Definition upon (x : extent) (f : Z -> extent) : extent := match x with Until e => f e | _ => x end.
Definition flagged (flags k : Z) : bool := (flags / k) mod 2 =? 1.
Definition within (p : bytes) (e : Z) : extent := if e <=? zlen p then Until e else Overrun.

(** a HyperlinkString at position [a]: 32-bit count of 16-bit characters *)
Definition string_at (p : bytes) (a : Z) : extent :=
  upon (within p (a + 4)) (fun _ => within p (a + 4 + 2 * field p a 4)).
(** The target frame name is skipped; its length is reckoned in 32 bits.  [q] is the record and
    what follows it in memory: when fewer than four bytes are left the count is taken from there. *)
Definition frame_at (p q : bytes) (a : Z) : extent :=
  if a + 4 <=? zlen q then within p (a + (4 + 2 * field q a 4) mod 4294967296) else Overrun.
Definition url_id : bytes := [224; 201; 234; 121; 249; 186; 206; 17; 140; 130; 0; 170; 0; 75; 169; 11].
Definition file_id : bytes := [3; 3; 0; 0; 0; 0; 0; 0; 192; 0; 0; 0; 0; 0; 0; 70].
(** URL moniker: bytes; file moniker: path of [n] bytes, 24 bytes, and the same as 16-bit characters *)
Definition moniker_at (p q : bytes) (a : Z) : extent :=
  if zlen q <? a + 16 then Overrun
  else if list_eq_dec Z.eq_dec (ztake 16 (zdrop a q)) url_id then
    upon (within p (a + 20)) (fun b => within p (b + 2 * (field p (a + 16) 4 / 2)))
  else if list_eq_dec Z.eq_dec (ztake 16 (zdrop a q)) file_id then
    upon (within p (a + 22)) (fun b =>
    upon (within p (b + field p (a + 18) 4 + 28)) (fun c =>
      let m := field p (c - 4) 4 in
      if m =? 0 then Until c else within p (c + 6 + 2 * (((m - 6) mod 4294967296) / 2))))
  else Refused.
(** class id, version, flags; then what the flags say *)
Definition link_extent (p q : bytes) : extent :=
  if zlen p <? 16 then Overrun
  else if zlen q <? 20 then Overrun
  else if negb (field q 16 4 =? 2) then Refused
  else
    upon (within p 24) (fun a =>
    let flags := field p 20 4 in
    let opt k (f : Z -> extent) a := if flagged flags k then f a else Until a in
    upon (opt 16 (string_at p) a) (fun a =>
    upon (opt 128 (frame_at p q) a) (fun a =>
    upon (opt 1 (if flagged flags 256 then string_at p else moniker_at p q) a) (fun a =>
    opt 8 (string_at p) a)))).
