(** lib/ppm2pwg.cpp (page bodies) and lib/pwg2ppm.cpp. *)
From Verif Require Import Base.
Local Open Scope Z_scope.

(** memcmp(p, q, n) == 0 over one memory block *)
Definition mem_eq (m : list byte) (p q n : Z) : outcome bool :=
  let! a := load m p n in
  let! b := load m q n in
  Ok (bytes_eqb a b).

(** ** compress_line: ppm2pwg.cpp:108-177
    Pointers are offsets into the memory block [m]; pointer comparison is
    comparison of offsets. *)

(** ppm2pwg.cpp:122-132: the while loop counting repetitions.
    [repeat] is an int8_t; it never exceeds 127. *)
Fixpoint repeat_run (fuel : nat) (m : list byte) (epos chunk current pos repeat : Z)
  : outcome (Z * Z) :=
  match fuel with
  | O => NoFuel
  | S f =>
      if pos =? epos then Ok (pos, repeat)
      else
        let! same := mem_eq m pos current chunk in
        if same then
          let pos := pos + chunk in
          let repeat := repeat + 1 in
          if repeat =? 127 then Ok (pos, repeat)
          else repeat_run f m epos chunk current pos repeat
        else Ok (pos, repeat)
  end.

(** ppm2pwg.cpp:141-151: the do/while loop collecting differing chunks. *)
Fixpoint literal_run (fuel : nat) (m : list byte) (epos chunk pos verbatim : Z)
  : outcome (Z * Z) :=
  match fuel with
  | O => NoFuel
  | S f =>
      let current := pos in
      let pos := pos + chunk in
      let verbatim := verbatim + 1 in
      if verbatim =? 127 then Ok (pos, verbatim)
      else if pos =? epos then Ok (pos, verbatim)
      else
        let! same := mem_eq m pos current chunk in
        if same then Ok (pos, verbatim)
        else literal_run f m epos chunk pos verbatim
  end.

(** ppm2pwg.cpp:114-176: the main loop; the result is what is appended to outBts. *)
Fixpoint compress_loop (fuel : nat) (m : list byte) (epos chunk pos : Z)
  : outcome (list byte) :=
  match fuel with
  | O => NoFuel
  | S f =>
      if pos =? epos then Ok []
      else
        let currentStart := pos in
        let current := pos in
        let pos := pos + chunk in
        (* line 120: pos == epos || memcmp(pos, current, oneChunk) == 0 *)
        let! rep := (if pos =? epos then Ok true else mem_eq m pos current chunk) in
        if rep then
          let! (pos, repeat) := repeat_run (S f) m epos chunk current pos 0 in
          let! data := load m current chunk in
          let! rest := compress_loop f m epos chunk pos in
          Ok (bZ repeat :: data ++ rest)
        else
          let! (pos, verbatim) := literal_run (S f) m epos chunk pos 1 in
          let verbatim := if pos =? epos then verbatim else verbatim - 1 in
          if verbatim =? 1 then
            let! data := load m currentStart chunk in
            let! rest := compress_loop f m epos chunk (currentStart + chunk) in
            Ok (bZ 0 :: data ++ rest)
          else
            let! data := load m currentStart (verbatim * chunk) in
            let! rest := compress_loop f m epos chunk (currentStart + verbatim * chunk) in
            Ok (bZ (257 - verbatim) :: data ++ rest)
  end.

Definition compress_line (m : list byte) (raw len oneChunk : Z) : outcome (list byte) :=
  compress_loop (S (Z.to_nat len)) m (raw + len) oneChunk raw.

(** ** bmp_to_pwg without the page header: ppm2pwg.cpp:48-105 *)

(** ppm2pwg.cpp:68-77: count following equal lines. Result: y and lineRepeat. *)
Fixpoint same_lines (fuel : nat) (m : list byte) (yRes bytesPerLine oneLine thisLine next_line y lineRepeat : Z)
  : outcome (Z * Z) :=
  match fuel with
  | O => NoFuel
  | S f =>
      if y + 1 <? yRes then
        let! same := mem_eq m thisLine next_line bytesPerLine in
        if same then
          let y := y + 1 in
          let next_line := next_line + oneLine in
          let lineRepeat := lineRepeat + 1 in
          if lineRepeat =? 255 then Ok (y, lineRepeat)
          else same_lines f m yRes bytesPerLine oneLine thisLine next_line y lineRepeat
        else Ok (y, lineRepeat)
      else Ok (y, lineRepeat)
  end.

(** ppm2pwg.cpp:87-88: uint8_t result of a 64-bit expression *)
Definition reverse_bits (b : byte) : byte :=
  bZ (Z.shiftr ((Z.land ((Zb b * 0x80200802) mod two64) 0x0884422110 * 0x0101010101) mod two64) 32).

(** ppm2pwg.cpp:85-89: tmpLine[i] = reversed thisLine[bytesPerLine-1-i] *)
Fixpoint flip_bits (n : nat) (m : list byte) (thisLine bytesPerLine i : Z) : outcome (list byte) :=
  match n with
  | O => Ok []
  | S n' =>
      let! b := load m (thisLine + (bytesPerLine - 1 - i)) 1 in
      let! rest := flip_bits n' m thisLine bytesPerLine (i + 1) in
      Ok (map reverse_bits b ++ rest)
  end.

(** ppm2pwg.cpp:93-97: memcpy(tmpLine+i, lastChunk-i, oneChunk), i += oneChunk while
    i < bytesPerLine.  The copies are consecutive; writing past tmpLine (bytesPerLine
    bytes long) is undefined behaviour, as is oneChunk = 0 (endless loop). *)
Fixpoint flip_chunks (fuel : nat) (m : list byte) (lastChunk bytesPerLine oneChunk i : Z)
  : outcome (list byte) :=
  match fuel with
  | O => NoFuel
  | S f =>
      if i <? bytesPerLine then
        if i + oneChunk <=? bytesPerLine then
          let! c := load m (lastChunk - i) oneChunk in
          let! rest := flip_chunks f m lastChunk bytesPerLine oneChunk (i + oneChunk) in
          Ok (c ++ rest)
        else UB
      else Ok []
  end.

(** ppm2pwg.cpp:62-105: the loop over lines.
    Pointer arithmetic is in Z: "y * oneLine" is computed by the code in size_t with
    wrap-around, which added to a 64-bit pointer gives the same address. *)
Fixpoint encode_lines (fuel : nat) (m : list byte)
    (yRes bytesPerLine oneLine row0 bpc oneChunk : Z) (hflip : bool) (y : Z)
  : outcome (list byte) :=
  match fuel with
  | O => NoFuel
  | S f =>
      if y <? yRes then
        let thisLine := row0 + y * oneLine in
        let! (y, lineRepeat) :=
          same_lines (S f) m yRes bytesPerLine oneLine thisLine (thisLine + oneLine) y 0 in
        let! body :=
          (if hflip then
             let! tmpLine :=
               (if bpc =? 1 then flip_bits (Z.to_nat bytesPerLine) m thisLine bytesPerLine 0
                else flip_chunks (S (Z.to_nat bytesPerLine)) m
                       (thisLine + bytesPerLine - oneChunk) bytesPerLine oneChunk 0) in
             compress_line tmpLine 0 bytesPerLine oneChunk
           else compress_line m thisLine bytesPerLine oneChunk) in
        let! rest := encode_lines f m yRes bytesPerLine oneLine row0 bpc oneChunk hflip (y + 1) in
        Ok (bZ lineRepeat :: body ++ rest)
      else Ok []
  end.

(** ppm2pwg.cpp:48-105 with the parameters' getters already evaluated.
    [hflip]/[vflip] are "backside && getBackHFlip()" / "backside && getBackVFlip()".
    "int oneLine" (line 51) truncates bytesPerLine to 32 bits. *)
Definition encode_page (bmp : list byte) (yRes bytesPerLine colors bpc : Z) (hflip vflip : bool)
  : outcome (list byte) :=
  let oneLine := to_s32 ((if vflip then - bytesPerLine else bytesPerLine) mod two32) in
  let row0 := if vflip then (yRes - 1) * bytesPerLine else 0 in
  let oneChunk := if bpc =? 1 then colors else colors * bpc / 8 in
  encode_lines (S (Z.to_nat yRes)) bmp yRes bytesPerLine oneLine row0 bpc oneChunk hflip 0.

(** ** raster_to_bmp: pwg2ppm.cpp:5-56 *)

(** pwg2ppm.cpp:8-11 *)
Definition white_pixel (colors : Z) : list byte :=
  if colors =? 1 then [bZ 0]
  else if colors =? 4 then [bZ 0; bZ 0; bZ 0; bZ 0]
  else [bZ 255; bZ 255; bZ 255].

(** pwg2ppm.cpp:26-29: append white until line.size() == byteWidth; the loop never
    ends if the size skips byteWidth. *)
Definition fill_white (line : list byte) (byteWidth : Z) (white : list byte) : outcome (list byte) :=
  let missing := byteWidth - Z.of_nat (length line) in
  let wl := Z.of_nat (length white) in
  if (0 <=? missing) && (missing mod wl =? 0)
  then Ok (line ++ concat (repeat white (Z.to_nat (missing / wl))))
  else Hang.

(** pwg2ppm.cpp:19-46: one line.  [fuel] bounds the number of control bytes. *)
Fixpoint decode_line (fuel : nat) (file line : list byte) (byteWidth colors : Z) (urf : bool)
  : outcome (list byte * list byte) :=
  match fuel with
  | O => NoFuel
  | S f =>
      if Z.of_nat (length line) =? byteWidth then Ok (line, file)
      else
        let! (count, file) := get_u8 file in
        if urf && (count =? 128) then
          let! line := fill_white line byteWidth (white_pixel colors) in
          decode_line f file line byteWidth colors urf
        else if count <? 128 then
          let repeats := count + 1 in
          let! (tmp, file) := get_bytes colors file in
          decode_line f file (line ++ concat (repeat tmp (Z.to_nat repeats))) byteWidth colors urf
        else
          let verbatim := - (count - 257) in
          let! (tmp, file) := get_bytes (verbatim * colors) file in
          decode_line f file (line ++ tmp) byteWidth colors urf
  end.

(** pwg2ppm.cpp:13-55: the loop over lines; [height] is a size_t and wraps.
    Returns what is appended to outBts and the unread rest of the file. *)
Fixpoint decode_lines (fuel : nat) (file : list byte) (byteWidth height colors : Z) (urf : bool)
  : outcome (list byte * list byte) :=
  match fuel with
  | O => NoFuel
  | S f =>
      if height =? 0 then Ok ([], file)
      else
        let! (lineRepeat, file) := get_u8 file in
        let! (line, file) := decode_line (S (length file)) file [] byteWidth colors urf in
        let height := ((height - 1) mod two64 - lineRepeat) mod two64 in
        let! (rest, file) := decode_lines f file byteWidth height colors urf in
        Ok (line ++ concat (repeat line (Z.to_nat lineRepeat)) ++ rest, file)
  end.

Definition raster_to_bmp (file : list byte) (byteWidth height colors : Z) (urf : bool)
  : outcome (list byte * list byte) :=
  decode_lines (S (length file)) file byteWidth height colors urf.

(** ** Pixel conversions of pwg2ppm *)

(** pwg2ppm.cpp:79-87 *)
Definition invert (bts : list byte) : list byte := map (fun b => bZ (255 - Zb b)) bts.

(** pwg2ppm.cpp:89-104: whole 4-byte pixels; the uint8_t subtractions wrap *)
Fixpoint cmyk2rgb (cmyk : list byte) : list byte :=
  match cmyk with
  | c :: m :: y :: k :: rest =>
      let w := (255 - Zb k) mod 256 in
      bZ (w - Zb c) :: bZ (w - Zb m) :: bZ (w - Zb y) :: cmyk2rgb rest
  | _ => []
  end.
