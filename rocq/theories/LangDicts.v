(** The signs of every language (i18n/*/dictionary.h 6, 20-22, 179-190). *)
From Coq Require Import NArith List String.
From Verif Require Import Common Txt LexModel.
Import ListNotations.
Local Notation "'tx' s" := (lit s%string) (at level 8, s at level 0).

Definition languages : list (text * dict) := [
  (tx "af", mkDict (tx ".") (tx ",") (tx ":=") (tx "<-") (tx "['") (tx "']") (tx ",") (tx ".") 58 (tx "own") (tx ">>"));
  (tx "am", mkDict (tx ".") (tx ",") (tx ":=") (tx "<-") (tx "['") (tx "']") (tx ",") (tx ".") 58 (tx "own") (tx "var"));
  (tx "ar", mkDict (tx ".") (tx "،") (tx ":=") (tx "<-") (tx "['") (tx "']") (tx ",") (tx ".") 58 (tx "own") (tx "var"));
  (tx "az", mkDict (tx ".") (tx ",") (tx ":=") (tx "<-") (tx "['") (tx "']") (tx ",") (tx ".") 58 (tx "own") (tx "var"));
  (tx "be", mkDict (tx ".") (tx ",") (tx "≔") (tx "↲") (tx "‘") (tx "’") (tx ",") (tx ".") 58 (tx "⚿") (tx "☞"));
  (tx "bg", mkDict (tx ".") (tx ",") (tx ":=") (tx "<-") (tx "['") (tx "']") (tx ",") (tx ".") 58 (tx "own") (tx "var"));
  (tx "bn", mkDict (tx ".") (tx ",") (tx ":=") (tx "<-") (tx "['") (tx "']") (tx ",") (tx ".") 58 (tx "own") (tx "var"));
  (tx "bs", mkDict (tx ".") (tx ",") (tx ":=") (tx "<-") (tx "['") (tx "']") (tx ",") (tx ".") 58 (tx "own") (tx "var"));
  (tx "ca", mkDict (tx ".") (tx ",") (tx ":=") (tx "<-") (tx "['") (tx "']") (tx ",") (tx ".") 58 (tx "own") (tx "var"));
  (tx "ceb", mkDict (tx ".") (tx ",") (tx ":=") (tx "<-") (tx "['") (tx "']") (tx ",") (tx ".") 58 (tx "own") (tx "var"));
  (tx "co", mkDict (tx ".") (tx ",") (tx ":=") (tx "<-") (tx "['") (tx "']") (tx ",") (tx ".") 58 (tx "own") (tx "var"));
  (tx "cs", mkDict (tx ".") (tx ",") (tx ":=") (tx "<-") (tx "['") (tx "']") (tx ",") (tx " ") 58 (tx "own") (tx "var"));
  (tx "cy", mkDict (tx ".") (tx ",") (tx ":=") (tx "<-") (tx "['") (tx "']") (tx ",") (tx ".") 58 (tx "own") (tx "var"));
  (tx "da", mkDict (tx ".") (tx ",") (tx ":=") (tx "<-") (tx "['") (tx "']") (tx ",") (tx ".") 58 (tx "own") (tx "var"));
  (tx "de", mkDict (tx ".") (tx ",") (tx ":=") (tx "<-") (tx "['") (tx "']") (tx ",") (tx ".") 58 (tx "own") (tx "var"));
  (tx "el", mkDict (tx ".") (tx ",") (tx ":=") (tx "<-") (tx "['") (tx "']") (tx ",") (tx ".") 58 (tx "own") (tx "var"));
  (tx "en", mkDict (tx ".") (tx ",") (tx ":=") (tx "<-") (tx "['") (tx "']") (tx ".") (tx ",") 58 (tx "own") (tx ">>"));
  (tx "es", mkDict (tx ".") (tx ",") (tx ":=") (tx "<-") (tx "['") (tx "']") (tx ",") (tx ".") 58 (tx "mi") (tx ">>"));
  (tx "et", mkDict (tx ".") (tx ",") (tx ":=") (tx "<-") (tx "['") (tx "']") (tx ",") (tx ".") 58 (tx "own") (tx "var"));
  (tx "eu", mkDict (tx ".") (tx ",") (tx ":=") (tx "<-") (tx "['") (tx "']") (tx ",") (tx ".") 58 (tx "own") (tx "var"));
  (tx "fa", mkDict (tx ".") (tx ",") (tx "≔") (tx "↲") (tx "‘") (tx "’") (tx ",") (tx ".") 58 (tx "⚿") (tx ">>"));
  (tx "fi", mkDict (tx ".") (tx ",") (tx ":=") (tx "<-") (tx "['") (tx "']") (tx ",") (tx ".") 58 (tx "own") (tx "var"));
  (tx "fr", mkDict (tx ".") (tx ",") (tx ":=") (tx "<-") (tx "['") (tx "']") (tx ",") (tx ".") 58 (tx "own") (tx "var"));
  (tx "fy", mkDict (tx ".") (tx ",") (tx ":=") (tx "<-") (tx "['") (tx "']") (tx ",") (tx ".") 58 (tx "own") (tx "var"));
  (tx "ga", mkDict (tx ".") (tx ",") (tx ":=") (tx "<-") (tx "['") (tx "']") (tx ",") (tx ".") 58 (tx "own") (tx "var"));
  (tx "gd", mkDict (tx ".") (tx ",") (tx ":=") (tx "<-") (tx "['") (tx "']") (tx ",") (tx ".") 58 (tx "own") (tx "var"));
  (tx "gl", mkDict (tx ".") (tx ",") (tx ":=") (tx "<-") (tx "['") (tx "']") (tx ",") (tx ".") 58 (tx "own") (tx "var"));
  (tx "gu", mkDict (tx ".") (tx ",") (tx ":=") (tx "<-") (tx "['") (tx "']") (tx ",") (tx ".") 58 (tx "own") (tx "var"));
  (tx "ha", mkDict (tx ".") (tx ",") (tx ":=") (tx "<-") (tx "“") (tx "”") (tx ",") (tx ".") 58 (tx "own") (tx "var"));
  (tx "haw", mkDict (tx ".") (tx ",") (tx ":=") (tx "<-") (tx "['") (tx "']") (tx ",") (tx ".") 58 (tx "own") (tx "var"));
  (tx "he", mkDict (tx ".") (tx ",") (tx "≔") (tx "↲") (tx "‘") (tx "’") (tx ",") (tx ".") 58 (tx "⚿") (tx "☞"));
  (tx "hi", mkDict (tx "।") (tx ",") (tx ":=") (tx "<-") (tx "['") (tx "']") (tx ".") (tx ",") 58 (tx "own") (tx "var"));
  (tx "hmn", mkDict (tx ".") (tx ",") (tx ":=") (tx "<-") (tx "['") (tx "']") (tx ",") (tx ".") 58 (tx "own") (tx "var"));
  (tx "hr", mkDict (tx ".") (tx ",") (tx ":=") (tx "<-") (tx "['") (tx "']") (tx ",") (tx ".") 58 (tx "own") (tx "var"));
  (tx "ht", mkDict (tx ".") (tx ",") (tx ":=") (tx "<-") (tx "['") (tx "']") (tx ",") (tx ".") 58 (tx "own") (tx "var"));
  (tx "hu", mkDict (tx ".") (tx ",") (tx ":=") (tx "<-") (tx "['") (tx "']") (tx ",") (tx ".") 58 (tx "own") (tx "var"));
  (tx "hy", mkDict (tx ":") (tx ",") (tx "≔") (tx "<-") (tx "['") (tx "']") (tx ",") (tx ".") 46 (tx "own") (tx "var"));
  (tx "id", mkDict (tx ".") (tx ",") (tx ":=") (tx "<-") (tx "['") (tx "']") (tx ",") (tx ".") 58 (tx "own") (tx "var"));
  (tx "ig", mkDict (tx ".") (tx ",") (tx ":=") (tx "<-") (tx "['") (tx "']") (tx ",") (tx ".") 58 (tx "own") (tx "var"));
  (tx "is", mkDict (tx ".") (tx ",") (tx ":=") (tx "<-") (tx "['") (tx "']") (tx ",") (tx ".") 58 (tx "own") (tx "var"));
  (tx "it", mkDict (tx ".") (tx ",") (tx ":=") (tx "<-") (tx "['") (tx "']") (tx ",") (tx ".") 58 (tx "own") (tx "var"));
  (tx "ja", mkDict (tx ".") (tx ",") (tx ":=") (tx "<-") (tx "['") (tx "']") (tx ",") (tx ".") 58 (tx "own") (tx "var"));
  (tx "jv", mkDict (tx ".") (tx ",") (tx ":=") (tx "<-") (tx "['") (tx "']") (tx ",") (tx ".") 58 (tx "own") (tx "var"));
  (tx "ka", mkDict (tx ".") (tx ",") (tx ":=") (tx "<-") (tx "['") (tx "']") (tx ",") (tx ".") 58 (tx "own") (tx "var"));
  (tx "kk", mkDict (tx ".") (tx ",") (tx ":=") (tx "<-") (tx "['") (tx "']") (tx ",") (tx ".") 58 (tx "own") (tx "var"));
  (tx "km", mkDict (tx ".") (tx ",") (tx ":=") (tx "<-") (tx "['") (tx "']") (tx ",") (tx ".") 58 (tx "own") (tx "var"));
  (tx "kn", mkDict (tx ".") (tx ",") (tx ":=") (tx "<-") (tx "['") (tx "']") (tx ",") (tx ".") 58 (tx "own") (tx "var"));
  (tx "ko", mkDict (tx ".") (tx ",") (tx "≔") (tx "↲") (tx "‘") (tx "’") (tx ",") (tx ".") 58 (tx "⚿") (tx "☞"));
  (tx "ku", mkDict (tx ".") (tx ",") (tx ":=") (tx "<-") (tx "['") (tx "']") (tx ",") (tx ".") 58 (tx "own") (tx "var"));
  (tx "ky", mkDict (tx ".") (tx ",") (tx ":=") (tx "<-") (tx "['") (tx "']") (tx ",") (tx ".") 58 (tx "own") (tx "var"));
  (tx "lb", mkDict (tx ".") (tx ",") (tx ":=") (tx "<-") (tx "['") (tx "']") (tx ",") (tx ".") 58 (tx "own") (tx "var"));
  (tx "lo", mkDict (tx ".") (tx ",") (tx ":=") (tx "<-") (tx "['") (tx "']") (tx ",") (tx ".") 58 (tx "own") (tx "var"));
  (tx "lt", mkDict (tx ".") (tx ",") (tx ":=") (tx "<-") (tx "['") (tx "']") (tx ",") (tx ".") 58 (tx "own") (tx "var"));
  (tx "lv", mkDict (tx ".") (tx ",") (tx ":=") (tx "<-") (tx "['") (tx "']") (tx ",") (tx ".") 58 (tx "own") (tx "var"));
  (tx "mg", mkDict (tx ".") (tx ",") (tx ":=") (tx "<-") (tx "['") (tx "']") (tx ",") (tx ".") 58 (tx "own") (tx "var"));
  (tx "mi", mkDict (tx ".") (tx ",") (tx ":=") (tx "<-") (tx "['") (tx "']") (tx ",") (tx ".") 58 (tx "own") (tx "var"));
  (tx "mk", mkDict (tx ".") (tx ",") (tx ":=") (tx "<-") (tx "['") (tx "']") (tx ",") (tx ".") 58 (tx "own") (tx "var"));
  (tx "ml", mkDict (tx ".") (tx ",") (tx ":=") (tx "<-") (tx "['") (tx "']") (tx ",") (tx ".") 58 (tx "own") (tx "var"));
  (tx "mn", mkDict (tx ".") (tx ",") (tx ":=") (tx "<-") (tx "['") (tx "']") (tx ",") (tx ".") 58 (tx "own") (tx "var"));
  (tx "mo", mkDict (tx ".") (tx ",") (tx ":=") (tx "<-") (tx "['") (tx "']") (tx ",") (tx ".") 58 (tx "own") (tx "var"));
  (tx "mr", mkDict (tx ".") (tx ",") (tx "≔") (tx "↲") (tx "‘") (tx "’") (tx ",") (tx ".") 58 (tx "⚿") (tx "☞"));
  (tx "ms", mkDict (tx ".") (tx ",") (tx ":=") (tx "<-") (tx "['") (tx "']") (tx ",") (tx ".") 58 (tx "own") (tx "var"));
  (tx "mt", mkDict (tx ".") (tx ",") (tx ":=") (tx "<-") (tx "['") (tx "']") (tx ",") (tx ".") 58 (tx "own") (tx "var"));
  (tx "my", mkDict (tx "။") (tx ",") (tx ":=") (tx "<-") (tx "['") (tx "']") (tx ",") (tx ".") 58 (tx "own") (tx "var"));
  (tx "ne", mkDict (tx ".") (tx ",") (tx ":=") (tx "<-") (tx "['") (tx "']") (tx ",") (tx ".") 58 (tx "own") (tx "var"));
  (tx "nl", mkDict (tx ".") (tx ",") (tx ":=") (tx "<-") (tx "['") (tx "']") (tx ",") (tx ".") 58 (tx "eigen") (tx ">>"));
  (tx "no", mkDict (tx ".") (tx ",") (tx ":=") (tx "<-") (tx "['") (tx "']") (tx ",") (tx ".") 58 (tx "own") (tx "var"));
  (tx "ny", mkDict (tx ".") (tx ",") (tx ":=") (tx "<-") (tx "['") (tx "']") (tx ",") (tx ".") 58 (tx "own") (tx "var"));
  (tx "or", mkDict (tx ".") (tx ",") (tx "≔") (tx "↲") (tx "‘") (tx "’") (tx ",") (tx ".") 58 (tx "⚿") (tx "☞"));
  (tx "pa", mkDict (tx ".") (tx ",") (tx ":=") (tx "<-") (tx "['") (tx "']") (tx ",") (tx ".") 58 (tx "own") (tx "var"));
  (tx "pap", mkDict (tx ".") (tx ",") (tx ":=") (tx "<-") (tx "['") (tx "']") (tx ".") (tx ",") 58 (tx "own") (tx "var"));
  (tx "pl", mkDict (tx ".") (tx ",") (tx ":=") (tx "<-") (tx "['") (tx "']") (tx ",") (tx ".") 58 (tx "own") (tx "var"));
  (tx "ps", mkDict (tx ".") (tx ",") (tx ":=") (tx "<-") (tx "['") (tx "']") (tx ",") (tx ".") 58 (tx "own") (tx "var"));
  (tx "pt", mkDict (tx ".") (tx ",") (tx ":=") (tx "<-") (tx "“") (tx "”") (tx ",") (tx ".") 58 (tx "own") (tx "var"));
  (tx "pt_br", mkDict (tx ".") (tx ",") (tx ":=") (tx "<-") (tx "['") (tx "']") (tx ",") (tx ".") 58 (tx "own") (tx "var"));
  (tx "ro", mkDict (tx ".") (tx ",") (tx ":=") (tx "<-") (tx "['") (tx "']") (tx ",") (tx ".") 58 (tx "own") (tx "var"));
  (tx "ru", mkDict (tx ".") (tx ",") (tx ":=") (tx "<-") (tx "['") (tx "']") (tx ",") (tx ".") 58 (tx "мой") (tx "дать"));
  (tx "rw", mkDict (tx ".") (tx ",") (tx ":=") (tx "<-") (tx "['") (tx "']") (tx ",") (tx ".") 58 (tx "own") (tx "var"));
  (tx "sd", mkDict (tx ".") (tx ",") (tx ":=") (tx "<-") (tx "['") (tx "']") (tx ",") (tx ".") 58 (tx "own") (tx "var"));
  (tx "si", mkDict (tx ".") (tx ",") (tx "≔") (tx "↲") (tx "‘") (tx "’") (tx ",") (tx ".") 58 (tx "⚿") (tx "☞"));
  (tx "sk", mkDict (tx ".") (tx ",") (tx ":=") (tx "<-") (tx "['") (tx "']") (tx ",") (tx ".") 58 (tx "own") (tx "var"));
  (tx "sl", mkDict (tx ".") (tx ",") (tx ":=") (tx "<-") (tx "['") (tx "']") (tx ",") (tx ".") 58 (tx "own") (tx "var"));
  (tx "sm", mkDict (tx ".") (tx ",") (tx ":=") (tx "<-") (tx "['") (tx "']") (tx ",") (tx ".") 58 (tx "own") (tx "var"));
  (tx "sn", mkDict (tx ".") (tx ",") (tx ":=") (tx "<-") (tx "['") (tx "']") (tx ",") (tx ".") 58 (tx "own") (tx "var"));
  (tx "so", mkDict (tx ".") (tx ",") (tx ":=") (tx "<-") (tx "['") (tx "']") (tx ",") (tx ".") 58 (tx "own") (tx "var"));
  (tx "sq", mkDict (tx ".") (tx ",") (tx ":=") (tx "<-") (tx "['") (tx "']") (tx ",") (tx ".") 58 (tx "own") (tx "var"));
  (tx "sr", mkDict (tx ".") (tx ",") (tx ":=") (tx "<-") (tx "['") (tx "']") (tx ",") (tx ".") 58 (tx "own") (tx "var"));
  (tx "st", mkDict (tx ".") (tx ",") (tx ":=") (tx "<-") (tx "['") (tx "']") (tx ",") (tx ".") 58 (tx "own") (tx "var"));
  (tx "su", mkDict (tx ".") (tx ",") (tx ":=") (tx "<-") (tx "['") (tx "']") (tx ",") (tx ".") 58 (tx "own") (tx "var"));
  (tx "sv", mkDict (tx ".") (tx ",") (tx ":=") (tx "<-") (tx "['") (tx "']") (tx ",") (tx ".") 58 (tx "own") (tx "var"));
  (tx "sw", mkDict (tx ".") (tx ",") (tx ":=") (tx "<-") (tx "['") (tx "']") (tx ",") (tx ".") 58 (tx "own") (tx "var"));
  (tx "ta", mkDict (tx ".") (tx ",") (tx ":=") (tx "<-") (tx "['") (tx "']") (tx ",") (tx ".") 58 (tx "own") (tx "var"));
  (tx "te", mkDict (tx ".") (tx ",") (tx ":=") (tx "<-") (tx "['") (tx "']") (tx ",") (tx ".") 58 (tx "own") (tx "var"));
  (tx "tg", mkDict (tx ".") (tx ",") (tx ":=") (tx "<-") (tx "['") (tx "']") (tx ",") (tx ".") 58 (tx "own") (tx "var"));
  (tx "th", mkDict (tx ".") (tx ",") (tx ":=") (tx "<-") (tx "['") (tx "']") (tx ",") (tx ".") 58 (tx "own") (tx "var"));
  (tx "tk", mkDict (tx ".") (tx ",") (tx ":=") (tx "<-") (tx "['") (tx "']") (tx ",") (tx ".") 58 (tx "own") (tx "var"));
  (tx "tl", mkDict (tx ".") (tx ",") (tx ":=") (tx "<-") (tx "['") (tx "']") (tx ",") (tx ".") 58 (tx "own") (tx "var"));
  (tx "tr", mkDict (tx ".") (tx ",") (tx ":=") (tx "<-") (tx "['") (tx "']") (tx ",") (tx ".") 58 (tx "own") (tx "isim"));
  (tx "tt", mkDict (tx ".") (tx ",") (tx ":=") (tx "<-") (tx "['") (tx "']") (tx ",") (tx ".") 58 (tx "own") (tx "var"));
  (tx "ug", mkDict (tx ".") (tx ",") (tx ":=") (tx "<-") (tx "['") (tx "']") (tx ",") (tx ".") 58 (tx "own") (tx "var"));
  (tx "uk", mkDict (tx ".") (tx ",") (tx "≔") (tx "↲") (tx "‘") (tx "’") (tx ",") (tx ".") 58 (tx "⚿") (tx "☞"));
  (tx "ur", mkDict (tx ".") (tx ",") (tx ":=") (tx "<-") (tx "['") (tx "']") (tx ",") (tx ".") 58 (tx "own") (tx "var"));
  (tx "uz", mkDict (tx ".") (tx ",") (tx ":=") (tx "<-") (tx "['") (tx "']") (tx ",") (tx ".") 58 (tx "own") (tx "var"));
  (tx "vi", mkDict (tx ".") (tx ",") (tx ":=") (tx "<-") (tx "['") (tx "']") (tx ",") (tx ".") 58 (tx "own") (tx "var"));
  (tx "x3", mkDict (tx ".") (tx ",") (tx "≔") (tx "↲") (tx "‘") (tx "’") (tx ".") (tx ",") 58 (tx "⚿") (tx "☞"));
  (tx "x4", mkDict (tx ".") (tx ",") (tx "≔") (tx "↲") (tx "“") (tx "”") (tx ",") (tx ".") 58 (tx "⚿") (tx "☞"));
  (tx "xh", mkDict (tx ".") (tx ",") (tx ":=") (tx "<-") (tx "['") (tx "']") (tx ",") (tx ".") 58 (tx "own") (tx "var"));
  (tx "xx", mkDict (tx ".") (tx ",") (tx "≔") (tx "↲") (tx "‘") (tx "’") (tx ".") (tx ",") 58 (tx "⚿") (tx "☞"));
  (tx "yak", mkDict (tx ".") (tx ",") (tx ":=") (tx "<-") (tx "«") (tx "»") (tx ",") (tx ".") 58 (tx "own") (tx "var"));
  (tx "yi", mkDict (tx ".") (tx ",") (tx "≔") (tx "↲") (tx "‘") (tx "’") (tx ",") (tx ".") 58 (tx "⚿") (tx "☞"));
  (tx "yo", mkDict (tx ".") (tx ",") (tx ":=") (tx "<-") (tx "['") (tx "']") (tx ",") (tx ".") 58 (tx "own") (tx "var"));
  (tx "zh1", mkDict (tx ".") (tx ",") (tx ":=") (tx "<-") (tx "“") (tx "”") (tx ",") (tx ".") 58 (tx "own") (tx "var"));
  (tx "zh2", mkDict (tx "。") (tx ",") (tx ":=") (tx "<-") (tx "['") (tx "']") (tx ",") (tx ".") 58 (tx "own") (tx "var"));
  (tx "zu", mkDict (tx ".") (tx ",") (tx ":=") (tx "<-") (tx "['") (tx "']") (tx ",") (tx ".") 58 (tx "own") (tx "var"))].
