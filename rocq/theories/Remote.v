(** * Model of [src/remotecontrol/**.rs] *)
From Coq Require Import String.
From Verif Require Export Machine Decoder Nec Rc5 Sbp.
Import ListNotations.
Open Scope N_scope.
Open Scope list_scope.

(** src/remotecontrol/mod.rs:70-139, [Action]. *)
Inductive action :=
| A_Power | A_Source | A_One | A_Two | A_Three | A_Four
| A_Five | A_Six | A_Seven | A_Eight | A_Nine | A_Zero
| A_Teletext | A_ChannelPrev | A_VolumeUp | A_VolumeDown | A_VolumeMute | A_ChannelList
| A_ChannelListNext | A_ChannelListPrev | A_Tools | A_Info | A_Return | A_Exit
| A_Enter | A_Up | A_Down | A_Left | A_Right | A_Red
| A_Green | A_Yellow | A_Blue | A_Emanual | A_PictureSize | A_Subtitle
| A_Stop | A_Rewind | A_Play | A_Paus | A_Play_Pause | A_Play_Pause2
| A_Forward | A_Mode | A_Shuffle | A_U_SD | A_Plus | A_Minus
| A_Next | A_Prev | A_Eq | A_Mute | A_Random | A_Repeat
| A_Time | A_Setup | A_Menu | A_PitchReset | A_PitchPlus | A_PitchMinus
| A_Prog | A_BatteryLow.

(** All actions, in the order of src/remotecontrol/mod.rs:70-139. *)
Definition all_actions : list action :=
  [ A_Power; A_Source; A_One; A_Two; A_Three; A_Four;
    A_Five; A_Six; A_Seven; A_Eight; A_Nine; A_Zero;
    A_Teletext; A_ChannelPrev; A_VolumeUp; A_VolumeDown; A_VolumeMute; A_ChannelList;
    A_ChannelListNext; A_ChannelListPrev; A_Tools; A_Info; A_Return; A_Exit;
    A_Enter; A_Up; A_Down; A_Left; A_Right; A_Red;
    A_Green; A_Yellow; A_Blue; A_Emanual; A_PictureSize; A_Subtitle;
    A_Stop; A_Rewind; A_Play; A_Paus; A_Play_Pause; A_Play_Pause2;
    A_Forward; A_Mode; A_Shuffle; A_U_SD; A_Plus; A_Minus;
    A_Next; A_Prev; A_Eq; A_Mute; A_Random; A_Repeat;
    A_Time; A_Setup; A_Menu; A_PitchReset; A_PitchPlus; A_PitchMinus;
    A_Prog; A_BatteryLow ].

(** [PartialEq for Action] (derived, src/remotecontrol/mod.rs:66). *)
Definition action_eq_dec (a b : action) : {a = b} + {a <> b}.
Proof. decide equality. Defined.
(** src/remotecontrol/mod.rs:66, [==]. *)
Definition action_eqb (a b : action) : bool := if action_eq_dec a b then true else false.

(** src/remotecontrol/mod.rs:142-207, [Action::to_str]. *)
Definition to_str (a : action) : string :=
  match a with
  | A_Power => "power"
  | A_Source => "source"
  | A_One => "one"
  | A_Two => "two"
  | A_Three => "three"
  | A_Four => "four"
  | A_Five => "five"
  | A_Six => "six"
  | A_Seven => "seven"
  | A_Eight => "eight"
  | A_Nine => "nine"
  | A_Zero => "zero"
  | A_Teletext => "teletext"
  | A_ChannelPrev => "channel_prev"
  | A_VolumeUp => "volume_up"
  | A_VolumeDown => "volume_down"
  | A_VolumeMute => "volume_mute"
  | A_ChannelList => "channellist"
  | A_ChannelListNext => "channellist_next"
  | A_ChannelListPrev => "channellist_prev"
  | A_Tools => "tools"
  | A_Info => "info"
  | A_Return => "return"
  | A_Exit => "exit"
  | A_Enter => "enter"
  | A_Up => "up"
  | A_Down => "down"
  | A_Left => "left"
  | A_Right => "right"
  | A_Red => "red"
  | A_Green => "green"
  | A_Yellow => "yellow"
  | A_Blue => "blue"
  | A_Emanual => "e_manual"
  | A_PictureSize => "picture_size"
  | A_Subtitle => "subtitle"
  | A_Stop => "stop"
  | A_Rewind => "rewind"
  | A_Play => "play"
  | A_Paus => "pause"
  | A_Play_Pause => "play_pause"
  | A_Play_Pause2 => "play_pause2"
  | A_Forward => "forward"
  | A_Mode => "mode"
  | A_Shuffle => "shuffle"
  | A_U_SD => "u_sd"
  | A_Plus => "plus"
  | A_Minus => "minus"
  | A_Next => "next"
  | A_Prev => "prev"
  | A_Eq => "equalizer"
  | A_Mute => "mute"
  | A_Random => "random"
  | A_Repeat => "repeat"
  | A_Time => "time"
  | A_Setup => "setup"
  | A_Menu => "menu"
  | A_PitchReset => "pitch_reset"
  | A_PitchPlus => "pitch_plus"
  | A_PitchMinus => "pitch_minus"
  | A_Prog => "program"
  | A_BatteryLow => "battery_low"
  end%string.

(** src/remotecontrol/mod.rs:19-52, [RemoteControlModel]: [ADDRESS], [Cmd] with
    its [AddressCommand] implementation, [BUTTONS], [PROTOCOL], and the possibly
    overridden [decode] and [encode]. *)
Record remote := mkRemote {
  rm_cmd : Type;
  rm_ac : address_command rm_cmd;
  rm_protocol : protocol_id;
  rm_address : N;
  rm_buttons : list (N * action);
  rm_decode : rm_cmd -> option action;
  rm_encode : action -> option rm_cmd }.

(** src/remotecontrol/mod.rs:34-43, default [decode]. *)
Definition default_decode {C} (ac : address_command C) (address : N)
    (buttons : list (N * action)) (c : C) : option action :=
  if negb (address =? ac_address ac c) then None
  else option_map snd (find (fun cb => fst cb =? ac_command ac c) buttons).

(** src/remotecontrol/mod.rs:46-51, default [encode]. *)
Definition default_encode {C} (ac : address_command C) (address : N)
    (buttons : list (N * action)) (button : action) : option C :=
  match find (fun cb => action_eqb (snd cb) button) buttons with
  | Some (c, _) => ac_create ac address c
  | None => None
  end.

(** src/remotecontrol/mod.rs:34-51, a remote control with the default methods. *)
Definition default_remote {C} (ac : address_command C) (p : protocol_id) (address : N)
    (buttons : list (N * action)) : remote :=
  mkRemote C ac p address buttons
    (default_decode ac address buttons) (default_encode ac address buttons).

(** src/remotecontrol/nec/samsungtv.rs:19-61. *)
Definition samsungtv_buttons : list (N * action) :=
  [ (2, A_Power); (1, A_Source); (4, A_One); (5, A_Two); (6, A_Three);
    (8, A_Four); (9, A_Five); (10, A_Six); (12, A_Seven); (13, A_Eight);
    (14, A_Nine); (17, A_Zero); (44, A_Teletext); (19, A_ChannelPrev); (7, A_VolumeUp);
    (11, A_VolumeDown); (15, A_VolumeMute); (107, A_ChannelList); (18, A_ChannelListNext); (16, A_ChannelListPrev);
    (75, A_Tools); (31, A_Info); (88, A_Return); (45, A_Exit); (104, A_Enter);
    (96, A_Up); (97, A_Down); (101, A_Left); (98, A_Right); (108, A_Red);
    (20, A_Green); (21, A_Yellow); (22, A_Blue); (63, A_Emanual); (62, A_PictureSize);
    (37, A_Subtitle); (70, A_Stop); (69, A_Rewind); (71, A_Play); (74, A_Paus);
    (72, A_Forward) ].

(** src/remotecontrol/nec/specialformp3.rs:21-43. *)
Definition mp3_buttons : list (N * action) :=
  [ (69, A_Power); (70, A_Mode); (71, A_Mute); (68, A_Play_Pause); (64, A_Prev);
    (67, A_Next); (7, A_Eq); (21, A_Minus); (9, A_Plus); (22, A_Zero);
    (25, A_Shuffle); (13, A_U_SD); (12, A_One); (24, A_Two); (94, A_Three);
    (8, A_Four); (28, A_Five); (90, A_Six); (66, A_Seven); (82, A_Eight);
    (74, A_Nine) ].

(** src/remotecontrol/rc5/cdplayer.rs:19-48. *)
Definition cdplayer_buttons : list (N * action) :=
  [ (1, A_One); (2, A_Two); (3, A_Three); (4, A_Four); (5, A_Five);
    (6, A_Six); (7, A_Seven); (8, A_Eight); (9, A_Nine); (11, A_Time);
    (12, A_Power); (16, A_Up); (17, A_Down); (18, A_Setup); (21, A_Left);
    (22, A_Right); (23, A_Enter); (28, A_Random); (29, A_Repeat); (32, A_Next);
    (33, A_Prev); (37, A_PitchReset); (38, A_PitchPlus); (39, A_PitchMinus); (41, A_Prog);
    (48, A_Paus); (53, A_Play); (54, A_Stop) ].

(** src/remotecontrol/sbp/blurayplayer.rs:18-28. *)
Definition bluray_buttons : list (N * action) :=
  [ (2, A_One); (3, A_Two); (4, A_Three); (5, A_Four); (6, A_Five);
    (7, A_Six); (8, A_Seven); (9, A_Eight); (10, A_Nine) ].

(** src/remotecontrol/nec/samsungtv.rs:12-62. *)
Definition SamsungTv : remote := default_remote samsung_ac PNecSamsung 7 samsungtv_buttons.
(** src/remotecontrol/nec/specialformp3.rs:13-44. *)
Definition SpecialForMp3 : remote := default_remote nec_ac PNec 0 mp3_buttons.
(** src/remotecontrol/rc5/cdplayer.rs:13-49. *)
Definition CdPlayer : remote := default_remote rc5_ac PRc5 20 cdplayer_buttons.
(** src/remotecontrol/sbp/blurayplayer.rs:12-29. *)
Definition SamsungBluRayPlayer : remote := default_remote sbp_ac PSbp 32 bluray_buttons.

(** src/remotecontrol/nec/apple2009.rs:15-26, the file-level [BUTTONS] table. *)
Definition apple_buttons : list (N * N * action) :=
  [ (14, 1, A_Menu); (14, 2, A_Play_Pause); (14, 3, A_Right); (14, 4, A_Left);
    (14, 5, A_Up); (14, 6, A_Down); (14, 46, A_Enter); (14, 47, A_Play_Pause2);
    (0, 3, A_BatteryLow); (0, 7, A_BatteryLow) ].

(** src/remotecontrol/nec/apple2009.rs:35-40, the overriding [decode]. *)
Definition apple_decode (c : apple_command) : option action :=
  option_map snd (find (fun pca => (fst (fst pca) =? apl_page c) && (snd (fst pca) =? apl_command c))
                       apple_buttons).

(** src/remotecontrol/nec/apple2009.rs:28-41.  The associated constant
    [Self::BUTTONS] keeps its default (empty) value, so the default [encode]
    searches an empty table. *)
Definition Apple2009 : remote :=
  mkRemote apple_command apple_ac PNecApple 0 [] apple_decode (default_encode apple_ac 0 []).

(** ** src/remotecontrol/mapper.rs *)

(** src/remotecontrol/mapper.rs:8-15, [Button]. *)
Record button (R : remote) := mkButton { btn_cmd : rm_cmd R; btn_action : option action }.
Arguments mkButton {R} _ _.
Arguments btn_cmd {R} _.
Arguments btn_action {R} _.

(** src/remotecontrol/mapper.rs:35-47, [From<Cmd> for Button<Rc, Cmd>]. *)
Definition button_from (R : remote) (c : rm_cmd R) : button R := mkButton c (rm_decode R c).

(** src/remotecontrol/mapper.rs:30-32, [is_repeat]. *)
Definition button_is_repeat {R} (x : button R) : bool := ac_is_repeat (rm_ac R) (btn_cmd x).
