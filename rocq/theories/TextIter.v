(** Text output of iterators over received data ([ReadIterator]), of SSIDs and of OWE transition mode elements. What other code writes is a
    parameter: [text] is the items' own [Debug] or [defmt::Format], [mac] that of MAC addresses and [quoted] that of strings. *)
From Verif Require Import Base Bits Layouts Common Elements ElementTypes Text.

(** read_iterator.rs:33-39: [debug_list] over a copy of the iterator *)
Definition iter_debug {A} (r : reader A) (text : A -> bytes) (st : option bytes) : Res serr bytes :=
  items <- iter_collect (S (iter_measure st)) r st ;;
  Ok (fmt_list (map text items)).
(** read_iterator.rs:40-60, one [write!] after the other *)
Definition iter_defmt {A} (r : reader A) (text : A -> bytes) (st : option bytes) : Res serr bytes :=
  '(first, iter) <- iter_next r st ;;
  middle <- match first with
            | Some x =>
                more <- iter_collect (S (iter_measure iter)) r iter ;;
                Ok (text x ++ concat (map (fun y => str ", " ++ text y) more))
            | None => Ok []
            end ;;
  Ok (str "[" ++ middle ++ str "]").

(** ssid.rs:103-107 [Display] *)
Definition ssid_display (ssid : bytes) : bytes := ssid.
(** the derived [Debug] of [BandAndChannelInfo], owe_transition.rs:13-21 *)
Definition band_debug (x : N * N) : bytes :=
  fmt_struct (str "BandAndChannelInfo") [(str "band", fmt_dec (fst x)); (str "channel", fmt_dec (snd x))].
(** owe_transition.rs:40-53 [Display] *)
Definition owe_display (mac quoted : bytes -> bytes) (x : OWETransition) : bytes :=
  fmt_struct (str "OWETransitionModeElement")
    ([(str "bssid", mac (owe_bssid x)); (str "ssid", quoted (owe_ssid x))] ++
     match owe_band x with Some b => [(str "band_and_channel_info", band_debug b)] | None => [] end).
