(** Pictures as coloured shapes, painted one over the other. *)
From Verif Require Export U8gDraw_Spec U8gRot_Spec.

Inductive shape :=
| SDot (a b : Z) | SHLine (a b w : Z) | SVLine (a b h : Z) | SBox (a b w h : Z) | SFrame (a b w h : Z) | SBitmap (a b cnt h : Z) (bits : list Z) | SXbm (a b w h : Z) (bits : list Z)
| SLine (a b a' b' : Z) | SCircle (cx cy r option : Z) | SDisc (cx cy r option : Z) | SRFrame (a b w h r : Z) | SRBox (a b w h r : Z).
(** The dots of a shape *)
Definition has (f : shape) (x y : Z) : Prop :=
  match f with
  | SDot a b => x = a /\ y = b
  | SHLine a b w => rect a b w 1 x y
  | SVLine a b h => rect a b 1 h x y
  | SBox a b w h => rect a b w h x y
  | SFrame a b w h => frame a b w h x y
  | SBitmap a b cnt h bits => bitmap a b cnt h bits x y
  | SXbm a b w h bits => xbm a b w h bits x y
  | SLine a b a' b' => line a b a' b' x y
  | SCircle cx cy r option => circle cx cy r option x y
  | SDisc cx cy r option => disc cx cy r option x y
  | SRFrame a b w h r => rframe a b w h r x y
  | SRBox a b w h r => rbox a b w h r x y
  end.
(** What C113 to C115 ask of their arguments *)
Definition shape_ok (f : shape) : Prop :=
  match f with
  | SDot a b => is_byte a /\ is_byte b
  | SHLine a b w => is_byte a /\ is_byte b /\ is_byte w
  | SVLine a b h => is_byte a /\ is_byte b /\ is_byte h
  | SBox a b w h => is_byte a /\ is_byte b /\ is_byte w /\ 1 <= h <= 255
  | SFrame a b w h => is_byte a /\ is_byte b /\ 1 <= w <= 255 /\ 1 <= h <= 255
  | SBitmap a b cnt h bits => is_byte a /\ is_byte b /\ 0 <= cnt <= 31 /\ is_byte h /\ Forall is_byte bits
  | SXbm a b w h bits => is_byte a /\ is_byte b /\ 0 <= w <= 248 /\ is_byte h /\ Forall is_byte bits
  | SLine a b a' b' => 0 <= a <= 128 /\ 0 <= b <= 128 /\ 0 <= a' <= 128 /\ 0 <= b' <= 128
  | SCircle cx cy r option => is_byte cx /\ is_byte cy /\ 0 <= r <= 76 /\ is_byte option
  | SDisc cx cy r option => is_byte cx /\ is_byte cy /\ 0 <= r <= 76 /\ is_byte option
  | SRFrame a b w h r => is_byte a /\ is_byte b /\ 0 <= r <= 76 /\ 2 * r + 2 <= w <= 255 /\ 2 * r + 2 <= h <= 255
  | SRBox a b w h r => is_byte a /\ is_byte b /\ 0 <= r <= 76 /\ 2 * r + 2 <= w <= 255 /\ 2 * r + 3 <= h <= 255
  end.
(** The calls of the library that draw them in a page; u8g_DrawPixel: u8g_ll_api.c:413-416 *)
Definition calls (c : box) (f : shape) : list msg :=
  match f with
  | SDot a b => [Pixel a b]
  | SHLine a b w => DrawHLine c a b w
  | SVLine a b h => DrawVLine c a b h
  | SBox a b w h => DrawBox c a b w h
  | SFrame a b w h => DrawFrame c a b w h
  | SBitmap a b cnt h bits => DrawBitmap c a b cnt h bits
  | SXbm a b w h bits => DrawXBM c a b w h bits
  | SLine a b a' b' => match DrawLine 256 a b a' b' with Some l => l | None => [] end
  | SCircle cx cy r option => DrawCircle c cx cy r option
  | SDisc cx cy r option => DrawDisc c cx cy r option
  | SRFrame a b w h r => DrawRFrame c a b w h r
  | SRBox a b w h r => DrawRBox c a b w h r
  end.
(** An application's draw function: the shapes one after the other, each with its colour set before *)
Definition paint (l : list (Z * shape)) (c : box) : list (Z * msg) := flat_map (fun e => map (pair (fst e)) (calls c (snd e))) l.
(** The picture: a dot has the colour of the last shape that has it *)
Inductive painted (x y : Z) : list (Z * shape) -> bool -> Prop :=
| painted_none : painted x y [] false
| painted_on l c f v : painted x y l v -> has f x y -> painted x y (l ++ [(c, f)]) (negb (c =? 0))
| painted_off l c f v : painted x y l v -> ~ has f x y -> painted x y (l ++ [(c, f)]) v.
