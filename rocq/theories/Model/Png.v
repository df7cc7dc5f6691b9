(** Canvas pixels: sizes, decompression and pixel formats (property/png.rs, util/color.rs). *)
From Verif.Model Require Import Base Reader.

(** One pixel: its channels, red first ([Rgb], [Rgba] of the image crate; property/png.rs:49-51). *)
Definition px := list Z.

(** property/png.rs:83-104 (WzPngFormat). *)
Inductive pngfmt :=
| FUnknown | BGRA4444 | BGRA8888 | ARGB1555 | RGB565 | RGB565_517 | DXT1 | DXT3 | DXT3SM | DXT5 | BC7
| R16 | A8 | RGBA1010102 | RGBA32Float.
(** property/png.rs:106-126 ([From<u32>]). *)
Definition fmt_of (v : Z) : pngfmt :=
  if v =? 1 then BGRA4444 else if v =? 2 then BGRA8888 else if v =? 257 then ARGB1555
  else if v =? 513 then RGB565 else if v =? 517 then RGB565_517 else if v =? 4097 then DXT1
  else if v =? 1026 then DXT3 else if v =? 3 then DXT3SM else if v =? 2050 then DXT5
  else if v =? 4098 then BC7 else if v =? 769 then R16 else if v =? 2304 then A8
  else if v =? 2562 then RGBA1010102 else if v =? 4100 then RGBA32Float else FUnknown.

(** property/png.rs:130-148 (WzPng), without the reader; [pages] is not looked at. *)
Record png := mkPng { pg_off : Z; pg_size : Z; pg_fmt1 : Z; pg_fmt2 : Z; pg_header : Z; pg_w : Z; pg_h : Z }.
(** property/png.rs:172-174 (format); the sum wraps. *)
Definition png_format (p : png) : pngfmt := fmt_of (wrap 32 (pg_fmt1 p + pg_fmt2 p)).
(** property/png.rs:176-181 (has_zlib_header). *)
Definition has_zlib_header (p : png) : bool :=
  (pg_header p =? 0x9C78) || (pg_header p =? 0xDA78) || (pg_header p =? 0x0178) || (pg_header p =? 0x5E78).

(** [u32::div_ceil] (property/png.rs:220). *)
Definition div_ceil (a b : Z) : Z := if a mod b =? 0 then a / b else a / b + 1.

(** property/png.rs:210-232 (get_buff_size); products are those of u32. *)
Definition get_buff_size (f : pngfmt) (w h : Z) : res Z :=
  match f with
  | BGRA4444 | ARGB1555 | RGB565 | R16 => Ok (wrap 32 (w * h * 2))
  | BGRA8888 | RGBA1010102 => Ok (wrap 32 (w * h * 4))
  | DXT3SM => Ok (wrap 32 (w * h * 4))
  | DXT3 | DXT5 => Ok (wrap 32 (div_ceil w 4 * div_ceil h 4 * 16))
  | BC7 => Ok (wrap 32 (w * (h - h mod 4)))
  | A8 => Ok (wrap 32 (w * h))
  | RGBA32Float => Ok (wrap 32 (w * h * 16))
  | RGB565_517 => Ok (wrap 32 (w * h) / 128)
  | _ => Err (EOther 20)
  end.

(** Indexing [v[i]] (e.g. property/png.rs:298): a panic outside. *)
Definition idx {A} (l : list A) (i : Z) : res A :=
  match nth_error l (Z.to_nat i) with Some x => Ok x | None => Panic end.
(** Indexing by a range [v[a..b]] (e.g. property/png.rs:351,847): a panic outside. *)
Definition range {A} (l : list A) (a b : Z) : res (list A) :=
  match slice l a b with Some x => Ok x | None => Panic end.

(** The numbers [0..n] (e.g. property/png.rs:362-363). *)
Definition upto (n : Z) : list Z := map Z.of_nat (seq 0 (Z.to_nat n)).
(** Collecting results, up to the first that is none (property/png.rs:346-380,780-786). *)
Fixpoint traverse {A B} (f : A -> res B) (l : list A) : res (list B) :=
  match l with
  | [] => Ok []
  | a :: r => rbind (f a) (fun b => rmap (cons b) (traverse f r))
  end.
(** [ImageBuffer::from_fn], [from_par_fn], [enumerate_pixels_mut] (property/png.rs:296,317,386,778): all pixels,
    line by line. *)
Definition from_fn (w h : Z) (f : Z -> Z -> res px) : res (list px) :=
  traverse (fun p => f (fst p) (snd p)) (flat_map (fun y => map (fun x => (x, y)) (upto w)) (upto h)).
(** [(x + y * width) as usize] (e.g. property/png.rs:297); u32 arithmetic. *)
Definition at_xy (w x y : Z) : Z := wrap 32 (x + y * w).

(** property/png.rs:290-339 (get_image_from_bgra4444). *)
Definition img_bgra4444 (raw : list Z) (w h : Z) : res (list px) :=
  from_fn w h (fun x y =>
    let i := at_xy w x y * 2 in
    rbind (idx raw i) (fun p0 =>
    rbind (idx raw (i + 1)) (fun p1 =>
      let b := Z.land p0 0x0F in
      let g := Z.land p0 0xF0 in
      let r := Z.land p1 0x0F in
      let a := Z.land p1 0xF0 in
      Ok [Z.lor r (wrap 8 (Z.shiftl r 4)); Z.lor g (Z.shiftr g 4);
          Z.lor b (wrap 8 (Z.shiftl b 4)); Z.lor a (Z.shiftr a 4)]))).

(** property/png.rs:743-769 (get_image_from_bgra8888). *)
Definition img_bgra8888 (raw : list Z) (w h : Z) : res (list px) :=
  from_fn w h (fun x y =>
    let i := at_xy w x y * 4 in
    rbind (idx raw (i + 2)) (fun c2 =>
    rbind (idx raw (i + 1)) (fun c1 =>
    rbind (idx raw i) (fun c0 =>
    rbind (idx raw (i + 3)) (fun c3 => Ok [c2; c1; c0; c3]))))).

(** util/color.rs:11-17 (from_rgb565) for [Rgb]. *)
Definition rgb565 (c : Z) : px :=
  let r := Z.shiftr (Z.land c 0xF800) 11 in
  let g := Z.shiftr (Z.land c 0x07E0) 5 in
  let b := Z.land c 0x001F in
  [Z.lor (wrap 8 (Z.shiftl r 3)) (Z.shiftr r 2); Z.lor (wrap 8 (Z.shiftl g 2)) (Z.shiftr g 4);
   Z.lor (wrap 8 (Z.shiftl b 3)) (Z.shiftr b 2)].
(** util/color.rs:30-37 (from_argb1555). *)
Definition argb1555 (c : Z) : px :=
  let a := if Z.land c 0x8000 =? 0 then 0 else 255 in
  let r := Z.shiftr (Z.land c 0x7C00) 10 in
  let g := Z.shiftr (Z.land c 0x03E0) 5 in
  let b := Z.land c 0x001F in
  [Z.lor (wrap 8 (Z.shiftl r 3)) (Z.shiftr r 2); Z.lor (wrap 8 (Z.shiftl g 3)) (Z.shiftr g 2);
   Z.lor (wrap 8 (Z.shiftl b 3)) (Z.shiftr b 2); a].

(** property/png.rs:773-789 (get_image_from_rgb565). *)
Definition img_rgb565 (raw : list Z) (w h : Z) : res (list px) :=
  from_fn w h (fun x y => rmap rgb565 (read_u16_at raw (at_xy w x y * 2))).
(** property/png.rs:792-808 (get_image_from_argb1555). *)
Definition img_argb1555 (raw : list Z) (w h : Z) : res (list px) :=
  from_fn w h (fun x y => rmap argb1555 (read_u16_at raw (at_xy w x y * 2))).
(** property/png.rs:811-827 (get_image_from_a16); 16-bit channels. *)
Definition img_a16 (raw : list Z) (w h : Z) : res (list px) :=
  from_fn w h (fun x y =>
    let i := at_xy w x y * 2 in
    rbind (idx raw i) (fun b0 => rbind (idx raw (i + 1)) (fun b1 => Ok [le_val [b0; b1]; 0; 0; 0xffff]))).
(** property/png.rs:836-843 (pixel_to_rgba). *)
Definition rgba1010102 (p : Z) : px :=
  [wrap 8 (Z.shiftr (Z.land p 0x3ff) 2); wrap 8 (Z.shiftr (Z.land (Z.shiftr p 10) 0x3ff) 2);
   wrap 8 (Z.shiftr (Z.land (Z.shiftr p 20) 0x3ff) 2); wrap 8 (Z.land (Z.shiftr p 30) 0x03 * 85)].
(** property/png.rs:830-857 (get_image_from_r10g10b10a2). *)
Definition img_r10g10b10a2 (raw : list Z) (w h : Z) : res (list px) :=
  from_fn w h (fun x y =>
    let i := at_xy w x y * 4 in
    rmap (fun c => rgba1010102 (le_val c)) (range raw i (i + 4))).

(** property/png.rs:577-612 (create_color_table); [expand_color_table] (616-645) computes the same.
    All intermediate values are small and non-negative. *)
Definition color_table (c0 c1 : Z) : list px :=
  let p0 := rgb565 c0 in
  let p1 := rgb565 c1 in
  if c1 <? c0 then
    [p0; p1; map (fun e => wrap 8 ((fst e * 2 + snd e + 1) / 3)) (combine p0 p1);
     map (fun e => wrap 8 ((fst e + snd e * 2 + 1) / 3)) (combine p0 p1)]
  else [p0; p1; map (fun e => wrap 8 ((fst e + snd e) / 2)) (combine p0 p1); [0; 0; 0]].
(** property/png.rs:657-666 (expand_color_index_table). *)
Definition color_idx_table (raw : list Z) : list Z :=
  flat_map (fun c => [Z.land c 0x03; Z.shiftr (Z.land c 0x0C) 2; Z.shiftr (Z.land c 0x30) 4;
                      Z.shiftr (Z.land c 0xC0) 6]) raw.
(** property/png.rs:678-688 (expand_alpha_table_dxt3). *)
Definition alpha_table3 (raw : list Z) : list Z :=
  map (fun a => Z.lor a (wrap 8 (Z.shiftl a 4)))
    (flat_map (fun a => [Z.land a 0x0F; Z.shiftr (Z.land a 0xf0) 4]) raw).
(** property/png.rs:700-716 (expand_alpha_table_dxt5). *)
Definition alpha_table5 (a0 a1 : Z) : list Z :=
  a0 :: a1 ::
  (if a1 <? a0 then map (fun i => wrap 8 (((8 - i) * a0 + (i - 1) * a1 + 3) / 7)) [2; 3; 4; 5; 6; 7]
   else map (fun i => wrap 8 (((6 - i) * a0 + (i - 1) * a1 + 2) / 5)) [2; 3; 4; 5] ++ [0; 255]).
(** property/png.rs:728-740 (expand_alpha_index_table_dxt5): one group of three bytes. *)
Definition alpha_idx_group (b0 b1 b2 : Z) : list Z :=
  let flags := Z.lor (Z.lor b0 (Z.shiftl b1 8)) (Z.shiftl b2 16) in
  map (fun j => wrap 8 (Z.shiftr (Z.land flags (wrap 32 (Z.shiftl 7 (3 * j)))) (3 * j))) [0; 1; 2; 3; 4; 5; 6; 7].

(** The colours of the sixteen pixels of a block (property/png.rs:353-374,460-470): [chunk] has all 16 bytes. *)
Definition block_colors (chunk : list Z) (u0 u1 : Z) : list px :=
  map (fun i => nth (Z.to_nat i) (color_table u0 u1) []) (color_idx_table (skipn 12 chunk)).
(** The body of the loop over blocks (property/png.rs:350-376 and 409-431): short chunks
    panic at [0..8] or [12..] and are an error in between. *)
Definition dxt3_block (chunk : list Z) : res (list px) :=
  if zlen chunk <? 8 then Panic
  else
    rbind (read_u16_at chunk 8) (fun u0 =>
    rbind (read_u16_at chunk 10) (fun u1 =>
    if zlen chunk <? 16 then Panic
    else Ok (map (fun e => fst e ++ [snd e])
               (combine (block_colors chunk u0 u1) (alpha_table3 (firstn 8 chunk)))))).
(** property/png.rs:448-472 and 508-530, with the alpha values of [alpha_table5]. *)
Definition dxt5_block (chunk : list Z) : res (list px) :=
  match chunk with
  | a0 :: a1 :: b0 :: b1 :: b2 :: b3 :: b4 :: b5 :: _ =>
    rbind (read_u16_at chunk 8) (fun u0 =>
    rbind (read_u16_at chunk 10) (fun u1 =>
    if zlen chunk <? 16 then Panic
    else Ok (map (fun e => fst e ++ [snd e])
               (combine (block_colors chunk u0 u1)
                  (map (fun i => nth (Z.to_nat i) (alpha_table5 a0 a1) 0)
                     (alpha_idx_group b0 b1 b2 ++ alpha_idx_group b3 b4 b5))))))
  | _ => Panic
  end.

(** [par_chunks(16)] (property/png.rs:346,442); [fuel] is the length. *)
Fixpoint chunks16 (fuel : nat) (l : list Z) : list (list Z) :=
  match fuel, l with
  | O, _ | _, [] => []
  | S f, _ => firstn 16 l :: chunks16 f (skipn 16 l)
  end.
(** property/png.rs:342-390 and 438-487 (get_image_from_dxt3, get_image_from_dxt5 with the default
    feature rayon); [block] decodes one block.  [grid_row_count] is [width / 4]. *)
Definition img_dxt (block : list Z -> res (list px)) (raw : list Z) (w h : Z) : res (list px) :=
  rbind (traverse block (chunks16 (length raw) raw)) (fun blocks =>
    from_fn w h (fun x y =>
      rbind (idx blocks (wrap 32 (x / 4 + y / 4 * (w / 4)))) (fun b => idx b (y mod 4 * 4 + x mod 4)))).

(** [put_pixel] (property/png.rs:424-428,524-528): the buffer as a function of the pixel number;
    outside the image it panics. *)
Definition put_pixel (w h : Z) (buf : Z -> px) (x y : Z) (p : px) : res (Z -> px) :=
  if (x <? w) && (y <? h) then Ok (fun k => if k =? y * w + x then p else buf k) else Panic.
(** Running through a list with a state (the [for] loops of property/png.rs:405-406,417-418). *)
Fixpoint each {A S} (f : S -> A -> res S) (l : list A) (s : S) : res S :=
  match l with
  | [] => Ok s
  | a :: r => rbind (f s a) (each f r)
  end.
(** property/png.rs:394-435 and 491-535 (the same without the feature rayon). *)
Definition img_dxt_serial (block : list Z -> res (list px)) (raw : list Z) (w h : Z) : res (list px) :=
  rmap (fun buf => map buf (upto (w * h)))
    (each (fun buf y =>
       each (fun buf x =>
         let off := wrap 32 (y * w + x * 4) in
         rbind (range raw off (off + 16)) (fun chunk =>
         rbind (block chunk) (fun b =>
           each (fun buf k => rbind (idx b k) (put_pixel w h buf (x + k mod 4) (y + k / 4)))
             (upto 16) buf)))
         (map (fun i => 4 * i) (upto (div_ceil w 4))) buf)
       (map (fun i => 4 * i) (upto (div_ceil h 4)))
       (fun k => [0; 0; 0; 0])).

(** The vector of [get_pixel_data_form_517] (property/png.rs:539): contents and the index [dst_idx]. *)
Definition store (n : Z) (s : (Z -> Z) * Z) (v : Z) : res ((Z -> Z) * Z) :=
  let (m, d) := s in
  if d <? n then Ok (fun k => if k =? d then v else m k, d + 1) else Panic.
(** property/png.rs:537-574 (get_pixel_data_form_517); [line_index] is [j * (width * 32)]. *)
Definition pixels_517 (raw : list Z) (w h : Z) : res (list Z) :=
  let n := wrap 32 (w * h * 2) in
  let i_steps := w / 16 in
  rmap (fun m => map m (upto n))
    (each (fun m j =>
       let line := j * wrap 32 (w * 32) in
       rbind (each (fun s i =>
                let k := (i + j * i_steps) * 2 in
                each (fun s _ => rbind (idx raw k) (fun b0 => rbind (store n s b0) (fun s1 =>
                                 rbind (idx raw (k + 1)) (fun b1 => store n s1 b1)))) (upto 16) s)
                (upto i_steps) (m, line)) (fun s =>
       rmap fst
         (each (fun s _ =>
            each (fun s src => if src <? n then store n s (fst s src) else Panic)
              (map (fun c => line + c) (upto (wrap 32 (w * 2)))) s)
            (upto 15) s)))
       (upto (h / 16)) (fun _ => 0)).

Section external.
  (** flate2's [Decompress::decompress_vec] with or without zlib header, into a vector of the given
      capacity (property/png.rs:278-287); [None] on an error. *)
  Variable inflate : bool -> list Z -> Z -> option (list Z).
  (** texture2ddecoder's [decode_bc7] into a vector of width x height words (property/png.rs:864-873):
      one BGRA word per pixel; [None] on an error, or when the vector is too small. *)
  Variable decode_bc7 : list Z -> Z -> Z -> option (list Z).

  (** property/png.rs:256-269: the loop over encrypted blocks. *)
  Fixpoint decrypt_blocks (fuel : nat) (r : rd) (off total_end : Z) : res (list Z) :=
    match fuel with
    | O => OutOfFuel
    | S f =>
      if off <? total_end then
        match read_i32_at (rd_buf r) off with
        | Ok n =>
          let size := wrap 64 n in
          let o := wrap 64 (off + 4) in
          rbind (range (rd_buf r) o (wrap 64 (o + size))) (fun data =>
          rmap (app (xor_ks (rd_ks r) 0 data)) (decrypt_blocks f r (wrap 64 (o + size)) total_end))
        | _ => Panic
        end
      else Ok []
    end.
  (** property/png.rs:233-274 (get_raw_data). *)
  Definition get_raw_data (r : rd) (p : png) (data : list Z) : res (list Z) :=
    rbind (get_buff_size (png_format p) (pg_w p) (pg_h p)) (fun capacity =>
    match (if has_zlib_header p then inflate true data capacity else None) with
    | Some out => Ok out
    | None =>
      rbind (decrypt_blocks (S (length (rd_buf r))) r (pg_off p) (wrap 64 (pg_off p + pg_size p))) (fun dec =>
      rbind (range dec 2 (zlen dec)) (fun d =>
      match inflate false d capacity with Some out => Ok out | None => Err (EOther 21) end))
    end).

  (** property/png.rs:859-887 (get_image_from_bc7). *)
  Definition img_bc7 (raw : list Z) (w h : Z) : res (list px) :=
    match decode_bc7 raw w h with
    | Some words => Ok (map (fun v => match le_bytes 4 v with
                                      | [b; g; r; a] => [r; g; b; a]
                                      | _ => []
                                      end) words)
    | None => Err (EOther 22)
    end.

  (** property/png.rs:182-209 (extract_png); [rayon] is the feature, on by default.
      The case of a buffer of the wrong size for [from_raw] (882) is part of [decode_bc7]. *)
  Definition extract_png (rayon : bool) (r : rd) (p : png) : res (list px) :=
    let w := pg_w p in
    let h := pg_h p in
    let dxt := if rayon then img_dxt else img_dxt_serial in
    rbind (range (rd_buf r) (pg_off p) (wrap 64 (pg_off p + pg_size p))) (fun data =>
    rbind (get_raw_data r p data) (fun raw =>
    match png_format p with
    | BGRA4444 => img_bgra4444 raw w h
    | BGRA8888 => img_bgra8888 raw w h
    | DXT3 | DXT3SM => dxt dxt3_block raw w h
    | ARGB1555 => img_argb1555 raw w h
    | RGB565 => img_rgb565 raw w h
    | RGB565_517 => rbind (pixels_517 raw w h) (fun d => img_rgb565 d w h)
    | DXT5 => dxt dxt5_block raw w h
    | R16 => img_a16 raw w h
    | RGBA1010102 => img_r10g10b10a2 raw w h
    | BC7 => img_bc7 raw w h
    | _ => Err (EOther 20)
    end)).
End external.
