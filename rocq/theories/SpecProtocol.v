(** * SpecProtocol: the vocabulary of C62: what the output renderer is told besides the drawing.

    An output renderer (the OutputRenderer trait, renderer.rs:591-643) is told about device commands,
    about the beginning and end of a sheet and about page mode.  Here is what it is to be told for a
    stream of commands, read off the commands' bytes and parameters only. *)
From Verif Require Import Base Command GTypes Handlers Context SpecPrinter SpecMemory Origin Renderer.
Local Open Scope Z_scope.
Local Open Scope list_scope.

(** The calls that draw nothing.  [NPageShape]: the page's area or direction changed. *)
Inductive notice :=
| NDevice (d : device_command) | NBegin | NErrors | NEnd | NPageBegin | NPageEnd | NPageShape | NPagePrinted.
Definition notice_of (e : event) : list notice :=
  match e with
  | EDevice d => [NDevice d] | EBeginRender => [NBegin] | EGetErrors => [NErrors] | EEndRender => [NEnd]
  | EPageBegin => [NPageBegin] | EPageEnd => [NPageEnd] | EPageAreaChanged _ _ _ => [NPageShape] | ERenderPage => [NPagePrinted]
  | EGraphics _ | EImage _ | EText _ _ _ _ => []
  end.
Definition notices (calls : list (context * event)) : list notice := flat_map (fun x => notice_of (snd x)) calls.

(** a device command and the calls that come with it *)
Definition announcement (d : device_command) : list notice :=
  NDevice d ::
  match d with
  | BeginPrint => [NBegin]
  | EndPrint => [NErrors; NEnd]
  | BeginPageMode => [NPageBegin]
  | EndPageMode => [NPageEnd]
  | PrintPageMode => [NPagePrinted]
  | ChangePageArea | ChangePageModeDirection => [NPageShape]
  | _ => []
  end.

(** The commands that reach the device, by their bytes. *)
Inductive act :=
| ACancel | ACut | AFormFeed | AReset | AFeedLines | AFeed | AReverse | ASize | AJustify | ATabs
| AEnterPage | ALeavePage | APrintArea | ADirection | APrintPage.
Definition acts : list (list Z * act) :=
  [ ([24; 64], ACancel);     (* CAN @ *)
    ([29; 86], ACut);        (* GS V m n *)
    ([12], AFormFeed);       (* FF *)
    ([27; 64], AReset);      (* ESC @ *)
    ([27; 100], AFeedLines); (* ESC d n *)
    ([27; 74], AFeed);       (* ESC J n *)
    ([27; 101], AReverse);   (* ESC e n *)
    ([29; 33], ASize);       (* GS ! n *)
    ([27; 97], AJustify);    (* ESC a n *)
    ([27; 68], ATabs);       (* ESC D n k *)
    ([27; 76], AEnterPage);  (* ESC L *)
    ([27; 83], ALeavePage);  (* ESC S *)
    ([27; 87], APrintArea);  (* ESC W *)
    ([27; 84], ADirection);  (* ESC T n *)
    ([27; 12], APrintPage) ]. (* ESC FF *)
Definition act_of (p : list Z) : option act := option_map snd (find (fun x => list_eqb (fst x) p) acts).

(** GS V m n: a cut comes before the feed it asks for *)
Definition cuts (m n : Z) : list device_command :=
  if (m =? 0) || (m =? 48) then [FullCut]
  else if (m =? 1) || (m =? 49) then [PartialCut]
  else if (m =? 65) || (m =? 97) || (m =? 103) then [FullCut; Feed n]
  else if (m =? 66) || (m =? 98) || (m =? 104) then [PartialCut; Feed n]
  else [].
(** what the device is to do, in page mode or not *)
Definition done (page : bool) (a : act) (d : list Z) : list device_command :=
  let n := nth 0 d 0 in
  match a with
  | ACancel => [Cancel]
  | ACut => cuts n (nth 1 d 0)
  | AFormFeed => if page then [EndPageMode; PrintPageMode] else [EndPrint]
  | AReset => [Initialize]
  | AFeedLines => [FeedLine n]
  | AFeed => [Feed n]
  | AReverse => [FeedLine (- n)]
  | ASize => [SetTextWidth (n / 16 mod 8 + 1); SetTextHeight (n mod 8 + 1)]
  | AJustify => [Justify (justify_code n)]
  | ATabs => [ChangeTabs (nth 0 d 24) (nth 1 d 24)]
  | AEnterPage => [BeginPageMode]
  | ALeavePage => []              (* leaving page mode by ESC S is not announced *)
  | APrintArea => [ChangePageArea]
  | ADirection => [ChangePageModeDirection]
  | APrintPage => if page then [PrintPageMode] else []
  end.
Definition page_after (page : bool) (a : act) : bool :=
  match a with AFormFeed | ALeavePage => false | AEnterPage => true | _ => page end.

(** The two commands that frame every job have no bytes; the parser names them. *)
Definition devices_for (page : bool) (c : command) : list device_command :=
  match picture_function c with
  | Some fn => if (fn =? 2) || (fn =? 50) then [ClearBufferGraphics] else []   (* GS ( L: print the buffer *)
  | None =>
      if String.eqb (c_name c) "Begin Print" then [BeginPrint]
      else if String.eqb (c_name c) "End Print" then [EndPrint]
      else match act_of (c_commands c) with Some a => done page a (c_data c) | None => [] end
  end.
Definition page_mode_after (page : bool) (c : command) : bool :=
  match act_of (c_commands c) with Some a => page_after page a | None => page end.
Fixpoint protocol (page : bool) (l : list command) : list notice :=
  match l with
  | [] => []
  | c :: r => flat_map announcement (devices_for page c) ++ protocol (page_mode_after page c) r
  end.
