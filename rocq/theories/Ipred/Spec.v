(** Intra prediction as the AV1 bitstream specification defines it: 7.11.2 (intra prediction process), 7.11.4
    (palette prediction process) and 7.11.5 (predict chroma from luma process). Nothing here refers to the model.

    CurrFrame[ plane ] is the function [cur] from a row and a column; AboveRow and LeftCol are functions from their
    index, which starts at -1, or -2 after upsampling. *)
From Coq Require Import ZArith List Bool.
From Verif Require Import Base.Loop.
Import ListNotations.
Open Scope Z_scope.

Definition Round2 (x n : Z) : Z := if n =? 0 then x else (x + 2 ^ (n - 1)) / 2 ^ n.
Definition Round2Signed (x n : Z) : Z := if 0 <=? x then Round2 x n else - Round2 (- x) n.
Definition Clip3 (lo hi v : Z) : Z := if v <? lo then lo else if hi <? v then hi else v.
Definition Clip1 (bd v : Z) : Z := Clip3 0 (2 ^ bd - 1) v.
Definition sum (n : Z) (f : Z -> Z) : Z := zfor 0 n (fun i s => s + f i) 0.
Definition at_ (l : list Z) (i : Z) : Z := nth (Z.to_nat i) l 0.

(** 6.10.16: the names of the modes *)
Definition DC_PRED := 0.
Definition V_PRED := 1.
Definition D67_PRED := 8.
Definition SMOOTH_PRED := 9.
Definition SMOOTH_V_PRED := 10.
Definition SMOOTH_H_PRED := 11.
Definition PAETH_PRED := 12.
Definition Mode_To_Angle : list Z := [0; 90; 180; 45; 135; 113; 157; 203; 67; 0; 0; 0; 0].

(** 9.3: constants *)
Definition Sm_Weights (log2 : Z) : list Z :=
  if log2 =? 2 then [255; 149; 85; 64]
  else if log2 =? 3 then [255; 197; 146; 105; 73; 50; 37; 32]
  else if log2 =? 4 then [255; 225; 196; 170; 145; 123; 102; 84; 68; 54; 43; 33; 26; 20; 17; 16]
  else if log2 =? 5 then [255; 240; 225; 210; 196; 182; 169; 157; 145; 133; 122; 111; 101; 92; 83; 74; 66; 59; 52; 45; 39; 34; 29; 25; 21; 17; 14; 12; 10; 9; 8; 8]
  else [255; 248; 240; 233; 225; 218; 210; 203; 196; 189; 182; 176; 169; 163; 156; 150; 144; 138; 133; 127; 121; 116; 111; 106; 101; 96; 91; 86; 82; 77; 73; 69;
        65; 61; 57; 54; 50; 47; 44; 41; 38; 35; 32; 29; 27; 25; 22; 20; 18; 16; 15; 13; 12; 10; 9; 8; 7; 6; 6; 5; 5; 4; 4; 4].
(** Dr_Intra_Derivative[ angle ]; zero where it is not used *)
Definition Dr_Intra_Derivative (angle : Z) : Z :=
  match find (fun p => fst p =? angle)
    [(3, 1023); (6, 547); (9, 372); (14, 273); (17, 215); (20, 178); (23, 151); (26, 132); (29, 116); (32, 102); (36, 90); (39, 80); (42, 71); (45, 64);
     (48, 57); (51, 51); (54, 45); (58, 40); (61, 35); (64, 31); (67, 27); (70, 23); (73, 19); (76, 15); (81, 11); (84, 7); (87, 3)] with
  | Some p => snd p
  | None => 0
  end.
Definition Intra_Edge_Kernel : list (list Z) := [[0; 4; 8; 4; 0]; [0; 5; 6; 5; 0]; [2; 4; 4; 4; 2]].
Definition Intra_Filter_Taps : list (list (list Z)) :=
  [ [ [-6; 10; 0; 0; 0; 12; 0]; [-5; 2; 10; 0; 0; 9; 0]; [-3; 1; 1; 10; 0; 7; 0]; [-3; 1; 1; 2; 10; 5; 0];
      [-4; 6; 0; 0; 0; 2; 12]; [-3; 2; 6; 0; 0; 2; 9]; [-3; 2; 2; 6; 0; 2; 7]; [-3; 1; 2; 2; 6; 3; 5] ];
    [ [-10; 16; 0; 0; 0; 10; 0]; [-6; 0; 16; 0; 0; 6; 0]; [-4; 0; 0; 16; 0; 4; 0]; [-2; 0; 0; 0; 16; 2; 0];
      [-10; 16; 0; 0; 0; 0; 10]; [-6; 0; 16; 0; 0; 0; 6]; [-4; 0; 0; 16; 0; 0; 4]; [-2; 0; 0; 0; 16; 0; 2] ];
    [ [-8; 8; 0; 0; 0; 16; 0]; [-8; 0; 8; 0; 0; 16; 0]; [-8; 0; 0; 8; 0; 16; 0]; [-8; 0; 0; 0; 8; 16; 0];
      [-4; 4; 0; 0; 0; 0; 16]; [-4; 0; 4; 0; 0; 0; 16]; [-4; 0; 0; 4; 0; 0; 16]; [-4; 0; 0; 0; 4; 0; 16] ];
    [ [-2; 8; 0; 0; 0; 10; 0]; [-1; 3; 8; 0; 0; 6; 0]; [-1; 2; 3; 8; 0; 4; 0]; [0; 1; 2; 3; 8; 2; 0];
      [-1; 4; 0; 0; 0; 3; 10]; [-1; 3; 4; 0; 0; 4; 6]; [-1; 2; 3; 4; 0; 4; 4]; [-1; 2; 2; 3; 4; 3; 3] ];
    [ [-12; 14; 0; 0; 0; 14; 0]; [-10; 0; 14; 0; 0; 12; 0]; [-9; 0; 0; 14; 0; 11; 0]; [-8; 0; 0; 0; 14; 10; 0];
      [-10; 12; 0; 0; 0; 0; 14]; [-9; 1; 12; 0; 0; 0; 12]; [-8; 0; 0; 12; 0; 1; 11]; [-7; 0; 0; 1; 12; 1; 9] ] ].

(** 7.11.2.9: intra edge filter strength selection process *)
Definition strength (w h : Z) (filterType : bool) (delta : Z) : Z :=
  let blkWh := w + h in
  let d := Z.abs delta in
  if filterType then
    if blkWh <=? 8 then (if 64 <=? d then 2 else if 40 <=? d then 1 else 0)
    else if blkWh <=? 16 then (if 48 <=? d then 2 else if 20 <=? d then 1 else 0)
    else if blkWh <=? 24 then (if 4 <=? d then 3 else 0)
    else 3
  else
    if blkWh <=? 8 then (if 56 <=? d then 1 else 0)
    else if blkWh <=? 12 then (if 40 <=? d then 1 else 0)
    else if blkWh <=? 16 then (if 40 <=? d then 1 else 0)
    else if blkWh <=? 24 then (if 32 <=? d then 3 else if 16 <=? d then 2 else if 8 <=? d then 1 else 0)
    else if blkWh <=? 32 then (if 32 <=? d then 3 else if 4 <=? d then 2 else 1)
    else 3.
(** 7.11.2.10: intra edge upsample selection process *)
Definition useUpsample (w h : Z) (filterType : bool) (delta : Z) : bool :=
  let d := Z.abs delta in
  let blkWh := w + h in
  if (d <=? 0) || (40 <=? d) then false else if filterType then blkWh <=? 8 else blkWh <=? 16.
(** 7.11.2.12: intra edge filter process; the array is changed from its index 0 on. *)
Definition edge_filter (sz str : Z) (e : Z -> Z) : Z -> Z := fun p =>
  if str =? 0 then e p
  else if (0 <=? p) && (p <? sz - 1)
  then let i := p + 1 in
       (sum 5 (fun j => at_ (nth (Z.to_nat (str - 1)) Intra_Edge_Kernel []) j * e (Clip3 0 (sz - 1) (i - 2 + j) - 1)) + 8) / 16
  else e p.
(** 7.11.2.11: intra edge upsample process *)
Definition upsample (bd numPx : Z) (buf : Z -> Z) : Z -> Z := fun p =>
  let dup := fun k => if k =? 0 then buf (-1) else if k =? numPx + 2 then buf (numPx - 1) else buf (k - 2) in
  if p =? -2 then dup 0
  else if (-1 <=? p) && (p <=? 2 * numPx - 2)
  then if Z.odd p
       then let i := (p + 1) / 2 in Clip1 bd (Round2 (- dup i + 9 * dup (i + 1) + 9 * dup (i + 2) - dup (i + 3)) 4)
       else dup (p / 2 + 2)
  else buf p.

(** The interpolation of 7.11.2.4 *)
Definition interp (e : Z -> Z) (base shift : Z) : Z := Round2 (e base * (32 - shift) + e (base + 1) * shift) 5.

Section Process.
  Variable bd : Z.
  Variable cur : Z -> Z -> Z.
  Variables maxX maxY x y : Z.
  Variables haveLeft haveAbove haveAboveRt haveBelowLft : bool.
  Variables log2W log2H : Z.
  Let w := 2 ^ log2W.
  Let h := 2 ^ log2H.

  (** 7.11.2: the arrays AboveRow and LeftCol. At most w samples are used to the right of the block above and h below
      the block to the left; the last of them is repeated. *)
  Definition corner : Z :=
    if haveAbove && haveLeft then cur (y - 1) (x - 1)
    else if haveAbove then cur (y - 1) x
    else if haveLeft then cur y (x - 1)
    else 2 ^ (bd - 1).
  Definition AboveRow : Z -> Z := fun i =>
    if i =? -1 then corner
    else if negb haveAbove && haveLeft then cur y (x - 1)
    else if negb haveAbove && negb haveLeft then 2 ^ (bd - 1) - 1
    else if i <? w then cur (y - 1) (Z.min maxX (x + i))
    else if haveAboveRt then cur (y - 1) (Z.min maxX (x + Z.min i (2 * w - 1)))
    else cur (y - 1) (Z.min maxX (x + w - 1)).
  Definition LeftCol : Z -> Z := fun i =>
    if i =? -1 then corner
    else if negb haveLeft && haveAbove then cur (y - 1) x
    else if negb haveLeft && negb haveAbove then 2 ^ (bd - 1) + 1
    else if i <? h then cur (Z.min maxY (y + i)) (x - 1)
    else if haveBelowLft then cur (Z.min maxY (y + Z.min i (2 * h - 1))) (x - 1)
    else cur (Z.min maxY (y + h - 1)) (x - 1).

  (** 7.11.2.5: DC intra prediction process *)
  Definition dc_pred : Z :=
    if haveLeft && haveAbove then (sum h LeftCol + sum w AboveRow + (w + h) / 2) / (w + h)
    else if haveLeft then Clip1 bd ((sum h LeftCol + h / 2) / 2 ^ log2H)
    else if haveAbove then Clip1 bd ((sum w AboveRow + w / 2) / 2 ^ log2W)
    else 2 ^ (bd - 1).
  (** 7.11.2.2: basic intra prediction process (Paeth) *)
  Definition paeth (i j : Z) : Z :=
    let base := AboveRow j + LeftCol i - AboveRow (-1) in
    let pLeft := Z.abs (base - LeftCol i) in
    let pTop := Z.abs (base - AboveRow j) in
    let pTopLeft := Z.abs (base - AboveRow (-1)) in
    if (pLeft <=? pTop) && (pLeft <=? pTopLeft) then LeftCol i
    else if pTop <=? pTopLeft then AboveRow j
    else AboveRow (-1).
  (** 7.11.2.6: smooth intra prediction process *)
  Definition smooth (i j : Z) : Z :=
    let wi := at_ (Sm_Weights log2H) i in
    let wj := at_ (Sm_Weights log2W) j in
    Round2 (wi * AboveRow j + (256 - wi) * LeftCol (h - 1) + wj * LeftCol i + (256 - wj) * AboveRow (w - 1)) 9.
  Definition smooth_v (i j : Z) : Z :=
    let wi := at_ (Sm_Weights log2H) i in Round2 (wi * AboveRow j + (256 - wi) * LeftCol (h - 1)) 8.
  Definition smooth_h (i j : Z) : Z :=
    let wj := at_ (Sm_Weights log2W) j in Round2 (wj * LeftCol i + (256 - wj) * AboveRow (w - 1)) 8.

  (** 7.11.2.3: recursive intra prediction process. The array is filled by blocks of two rows of four. *)
  Definition recursive (filter_intra_mode : Z) : Z -> Z -> Z :=
    zfor 0 (h / 2) (fun i2 pred => zfor 0 (w / 4) (fun j4 pred =>
      let p := fun i =>
        if i <? 5
        then if i2 =? 0 then AboveRow (4 * j4 + i - 1)
             else if (j4 =? 0) && (i =? 0) then LeftCol (2 * i2 - 1)
             else pred (2 * i2 - 1) (4 * j4 + i - 1)
        else if j4 =? 0 then LeftCol (2 * i2 + i - 5)
             else pred (2 * i2 + i - 5) (4 * j4 - 1) in
      let value := fun i1 j1 =>
        let taps := nth (Z.to_nat (4 * i1 + j1)) (nth (Z.to_nat filter_intra_mode) Intra_Filter_Taps []) [] in
        Clip1 bd (Round2Signed (sum 7 (fun i => at_ taps i * p i)) 4) in
      fun r c => if (2 * i2 <=? r) && (r <? 2 * i2 + 2) && (4 * j4 <=? c) && (c <? 4 * j4 + 4) then value (r - 2 * i2) (c - 4 * j4) else pred r c) pred)
      (fun _ _ => 0).

  (** 7.11.2.4: directional intra prediction process *)
  Definition filtered_corner (pAngle : Z) (e : Z -> Z) : Z -> Z := fun i =>
    if (i =? -1) && (90 <? pAngle) && (pAngle <? 180) && (24 <=? w + h)
    then Round2 (LeftCol 0 * 5 + AboveRow (-1) * 6 + AboveRow 0 * 5) 4
    else e i.
  Definition above_edge (enable_intra_edge_filter filterType : bool) (pAngle : Z) : Z -> Z :=
    let turned := enable_intra_edge_filter && negb (pAngle =? 90) && negb (pAngle =? 180) in
    let numPx := w + (if pAngle <? 90 then h else 0) in
    let above := if turned then filtered_corner pAngle AboveRow else AboveRow in
    let above := if turned && haveAbove
      then edge_filter (Z.min w (maxX - x + 1) + (if pAngle <? 90 then h else 0) + 1) (strength w h filterType (pAngle - 90)) above else above in
    if enable_intra_edge_filter && useUpsample w h filterType (pAngle - 90) then upsample bd numPx above else above.
  Definition left_edge (enable_intra_edge_filter filterType : bool) (pAngle : Z) : Z -> Z :=
    let turned := enable_intra_edge_filter && negb (pAngle =? 90) && negb (pAngle =? 180) in
    let numPx := h + (if 180 <? pAngle then w else 0) in
    let left := if turned then filtered_corner pAngle LeftCol else LeftCol in
    let left := if turned && haveLeft
      then edge_filter (Z.min h (maxY - y + 1) + (if 180 <? pAngle then w else 0) + 1) (strength w h filterType (pAngle - 180)) left else left in
    if enable_intra_edge_filter && useUpsample w h filterType (pAngle - 180) then upsample bd numPx left else left.
  Definition directional (enable_intra_edge_filter filterType : bool) (pAngle i j : Z) : Z :=
    let above := above_edge enable_intra_edge_filter filterType pAngle in
    let left := left_edge enable_intra_edge_filter filterType pAngle in
    let upsampleAbove := enable_intra_edge_filter && useUpsample w h filterType (pAngle - 90) in
    let upsampleLeft := enable_intra_edge_filter && useUpsample w h filterType (pAngle - 180) in
    let ua := Z.b2z upsampleAbove in
    let ul := Z.b2z upsampleLeft in
    let dx := if pAngle <? 90 then Dr_Intra_Derivative pAngle else Dr_Intra_Derivative (180 - pAngle) in
    let dy := if pAngle <? 180 then Dr_Intra_Derivative (pAngle - 90) else Dr_Intra_Derivative (270 - pAngle) in
    if pAngle <? 90 then
      let idx := (i + 1) * dx in
      let base := idx / 2 ^ (6 - ua) + j * 2 ^ ua in
      let shift := (idx * 2 ^ ua / 2) mod 32 in
      let maxBaseX := (w + h - 1) * 2 ^ ua in
      if base <? maxBaseX then interp above base shift else above maxBaseX
    else if pAngle =? 90 then above j
    else if pAngle <? 180 then
      let idx := j * 64 - (i + 1) * dx in
      let base := idx / 2 ^ (6 - ua) in
      if - 2 ^ ua <=? base then interp above base ((idx * 2 ^ ua / 2) mod 32)
      else
        let idx := i * 64 - (j + 1) * dy in
        interp left (idx / 2 ^ (6 - ul)) ((idx * 2 ^ ul / 2) mod 32)
    else if pAngle =? 180 then left i
    else
      let idx := (j + 1) * dy in
      interp left (idx / 2 ^ (6 - ul) + i * 2 ^ ul) ((idx * 2 ^ ul / 2) mod 32).

  (** 7.11.2: the choice of the process; [use_filter_intra] is the filter mode if use_filter_intra is 1. *)
  Definition intra_prediction (enable_intra_edge_filter filterType : bool) (use_filter_intra : option Z) (mode angleDelta i j : Z) : Z :=
    match use_filter_intra with
    | Some f => recursive f i j
    | None =>
        if (V_PRED <=? mode) && (mode <=? D67_PRED)
        then directional enable_intra_edge_filter filterType (at_ Mode_To_Angle mode + angleDelta * 3) i j
        else if mode =? SMOOTH_PRED then smooth i j
        else if mode =? SMOOTH_V_PRED then smooth_v i j
        else if mode =? SMOOTH_H_PRED then smooth_h i j
        else if mode =? DC_PRED then dc_pred
        else paeth i j
    end.

  (** 7.11.5: predict chroma from luma process. [luma] is CurrFrame[ 0 ]; MaxLumaW and MaxLumaH are the size of the part of
      it that was decoded. *)
  Definition cfl_luma (luma : Z -> Z -> Z) (subX subY : bool) (MaxLumaW MaxLumaH i j : Z) : Z :=
    let sx := Z.b2z subX in
    let sy := Z.b2z subY in
    let lumaY := Z.min (y * 2 ^ sy + i * 2 ^ sy) (MaxLumaH - 2 ^ sy) in
    let lumaX := Z.min (x * 2 ^ sx + j * 2 ^ sx) (MaxLumaW - 2 ^ sx) in
    sum (1 + sy) (fun dy => sum (1 + sx) (fun dx => luma (lumaY + dy) (lumaX + dx))) * 2 ^ (3 - sx - sy).
  Definition cfl (luma : Z -> Z -> Z) (subX subY : bool) (MaxLumaW MaxLumaH alpha i j : Z) : Z :=
    let L := cfl_luma luma subX subY MaxLumaW MaxLumaH in
    let lumaAvg := Round2 (sum h (fun i => sum w (fun j => L i j))) (log2W + log2H) in
    Clip1 bd (dc_pred + Round2Signed (alpha * (L i j - lumaAvg)) 6).
End Process.

(** 7.11.4: palette prediction process *)
Definition palette_prediction (palette : list Z) (map : Z -> Z -> Z) (i j : Z) : Z := at_ palette (map i j).
