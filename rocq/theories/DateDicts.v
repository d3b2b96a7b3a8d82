(** How moments are written and the word for their time in every language (i18n/*/msg.h 77-78, CTR_STDDATEFRMT, and
    i18n/*/dictionary.h 122, CTR_DICT_TIME). *)
From Coq Require Import NArith List String.
From Verif Require Import Common Txt.
Import ListNotations.
Local Notation "'tx' s" := (lit s%string) (at level 8, s at level 0).

Definition date_words : list (text * (text * text)) := [
  (tx "af", (tx "%Y-%m-%d %H:%M:%S", tx "tyd"));
  (tx "am", (tx "%Y-%m-%d %H:%M:%S", tx "ጊዜ"));
  (tx "ar", (tx "%Y-%m-%d %H:%M:%S", tx "زمن"));
  (tx "az", (tx "%Y-%m-%d %H:%M:%S", tx "vaxt"));
  (tx "be", (tx "%Y-%m-%d %H:%M:%S", tx "час"));
  (tx "bg", (tx "%Y-%m-%d %H:%M:%S", tx "часовник"));
  (tx "bn", (tx "%Y-%m-%d %H:%M:%S", tx "সময়"));
  (tx "bs", (tx "%Y-%m-%d %H:%M:%S", tx "vreme"));
  (tx "ca", (tx "%Y-%m-%d %H:%M:%S", tx "temps"));
  (tx "ceb", (tx "%Y-%m-%d %H:%M:%S", tx "panahon"));
  (tx "co", (tx "%Y-%m-%d %H:%M:%S", tx "tempu"));
  (tx "cs", (tx "%d. %m. %Y. %H.%M.%S", tx "čas"));
  (tx "cy", (tx "%Y-%m-%d %H:%M:%S", tx "amser"));
  (tx "da", (tx "%Y-%m-%d %H:%M:%S", tx "tid"));
  (tx "de", (tx "%Y-%m-%d %H:%M:%S", tx "zeit"));
  (tx "el", (tx "%Y-%m-%d %H:%M:%S", tx "χρόνος"));
  (tx "en", (tx "%d/%m/%Y %H:%M:%S", tx "time"));
  (tx "es", (tx "%Y-%m-%d %H:%M:%S", tx "tiempo"));
  (tx "et", (tx "%Y-%m-%d %H:%M:%S", tx "aeg"));
  (tx "eu", (tx "%Y-%m-%d %H:%M:%S", tx "denbora"));
  (tx "fa", (tx "%Y-%m-%d %H:%M:%S", tx "زمان"));
  (tx "fi", (tx "%Y-%m-%d %H:%M:%S", tx "aika"));
  (tx "fr", (tx "%Y-%m-%d %H:%M:%S", tx "temps"));
  (tx "fy", (tx "%Y-%m-%d %H.%M.%S", tx "tiid"));
  (tx "ga", (tx "%Y-%m-%d %H:%M:%S", tx "am"));
  (tx "gd", (tx "%Y-%m-%d %H:%M:%S", tx "ùine"));
  (tx "gl", (tx "%Y-%m-%d %H:%M:%S", tx "tempo"));
  (tx "gu", (tx "%Y-%m-%d %H:%M:%S", tx "સમય"));
  (tx "ha", (tx "%Y-%m-%d %H:%M:%S", tx "lokaci"));
  (tx "haw", (tx "%Y-%m-%d %H:%M:%S", tx "wa"));
  (tx "he", (tx "%Y-%m-%d %H:%M:%S", tx "זמן"));
  (tx "hi", (tx "%Y-%m-%d %H:%M:%S", tx "अवधि"));
  (tx "hmn", (tx "%Y-%m-%d %H:%M:%S", tx "sijhawm"));
  (tx "hr", (tx "%Y-%m-%d %H:%M:%S", tx "vrijeme"));
  (tx "ht", (tx "%Y-%m-%d %H:%M:%S", tx "tan"));
  (tx "hu", (tx "%Y-%m-%d %H:%M:%S", tx "idő"));
  (tx "hy", (tx "%Y-%m-%d %H:%M:%S", tx "ժամանակ"));
  (tx "id", (tx "%Y-%m-%d %H:%M:%S", tx "waktu"));
  (tx "ig", (tx "%Y-%m-%d %H:%M:%S", tx "oge"));
  (tx "is", (tx "%Y-%m-%d %H:%M:%S", tx "tíma"));
  (tx "it", (tx "%Y-%m-%d %H:%M:%S", tx "tempo"));
  (tx "ja", (tx "%Y-%m-%d %H:%M:%S", tx "時間"));
  (tx "jv", (tx "%Y-%m-%d %H:%M:%S", tx "wektu"));
  (tx "ka", (tx "%Y-%m-%d %H:%M:%S", tx "დრო"));
  (tx "kk", (tx "%Y-%m-%d %H:%M:%S", tx "уақыт"));
  (tx "km", (tx "%Y-%m-%d %H:%M:%S", tx "ពេលវេលា"));
  (tx "kn", (tx "%Y-%m-%d %H:%M:%S", tx "ಸಮಯ"));
  (tx "ko", (tx "%Y-%m-%d %H:%M:%S", tx "시각"));
  (tx "ku", (tx "%Y-%m-%d %H:%M:%S", tx "dem"));
  (tx "ky", (tx "%Y-%m-%d %H:%M:%S", tx "убакыт"));
  (tx "lb", (tx "%Y-%m-%d %H:%M:%S", tx "zäit"));
  (tx "lo", (tx "%Y-%m-%d %H:%M:%S", tx "ທີ່ໃຊ້ເວລາ"));
  (tx "lt", (tx "%Y-%m-%d %H:%M:%S", tx "laikas"));
  (tx "lv", (tx "%Y-%m-%d %H:%M:%S", tx "laiks"));
  (tx "mg", (tx "%Y-%m-%d %H:%M:%S", tx "fotoana"));
  (tx "mi", (tx "%Y-%m-%d %H:%M:%S", tx "wā"));
  (tx "mk", (tx "%Y-%m-%d %H:%M:%S", tx "време"));
  (tx "ml", (tx "%Y-%m-%d %H:%M:%S", tx "സമയം"));
  (tx "mn", (tx "%Y-%m-%d %H:%M:%S", tx "цаг-хугацаа"));
  (tx "mo", (tx "%Y-%m-%d %H:%M:%S", tx "time"));
  (tx "mr", (tx "%Y-%m-%d %H:%M:%S", tx "वेळ"));
  (tx "ms", (tx "%Y-%m-%d %H:%M:%S", tx "masa"));
  (tx "mt", (tx "%Y-%m-%d %H:%M:%S", tx "iż-żmien"));
  (tx "my", (tx "%Y-%m-%d %H:%M:%S", tx "အချိန်"));
  (tx "ne", (tx "%Y-%m-%d %H:%M:%S", tx "समय"));
  (tx "nl", (tx "%d-%m-%Y %H.%M:%S", tx "tijd"));
  (tx "no", (tx "%Y-%m-%d %H:%M:%S", tx "tid"));
  (tx "ny", (tx "%Y-%m-%d %H:%M:%S", tx "nthawi"));
  (tx "or", (tx "%Y-%m-%d %H:%M:%S", tx "ସମୟ"));
  (tx "pa", (tx "%Y-%m-%d %H:%M:%S", tx "ਸਮਾਂ"));
  (tx "pap", (tx "%Y-%m-%d %H:%M:%S", tx "tempu"));
  (tx "pl", (tx "%Y-%m-%d %H:%M:%S", tx "czas"));
  (tx "ps", (tx "%Y-%m-%d %H:%M:%S", tx "وخت"));
  (tx "pt", (tx "%Y-%m-%d %H:%M:%S", tx "tempo"));
  (tx "pt_br", (tx "%Y-%m-%d %H:%M:%S", tx "tempo"));
  (tx "ro", (tx "%Y-%m-%d %H:%M:%S", tx "timp"));
  (tx "ru", (tx "%H:%M:%S %d.%m.%Y", tx "время"));
  (tx "rw", (tx "%Y-%m-%d %H:%M:%S", tx "igihe"));
  (tx "sd", (tx "%Y-%m-%d %H:%M:%S", tx "قت"));
  (tx "si", (tx "%Y-%m-%d %H:%M:%S", tx "කාලය"));
  (tx "sk", (tx "%Y-%m-%d %H:%M:%S", tx "čas"));
  (tx "sl", (tx "%Y-%m-%d %H:%M:%S", tx "čas"));
  (tx "sm", (tx "%Y-%m-%d %H:%M:%S", tx "taimi"));
  (tx "sn", (tx "%Y-%m-%d %H:%M:%S", tx "nguva"));
  (tx "so", (tx "%Y-%m-%d %H:%M:%S", tx "waqti"));
  (tx "sq", (tx "%Y-%m-%d %H:%M:%S", tx "kohë"));
  (tx "sr", (tx "%Y-%m-%d %H:%M:%S", tx "време"));
  (tx "st", (tx "%Y-%m-%d %H:%M:%S", tx "nako"));
  (tx "su", (tx "%Y-%m-%d %H:%M:%S", tx "waktosna"));
  (tx "sv", (tx "%Y-%m-%d %H:%M:%S", tx "tid"));
  (tx "sw", (tx "%Y-%m-%d %H:%M:%S", tx "wakati"));
  (tx "ta", (tx "%Y-%m-%d %H:%M:%S", tx "நேரம்"));
  (tx "te", (tx "%Y-%m-%d %H:%M:%S", tx "సమయం"));
  (tx "tg", (tx "%Y-%m-%d %H:%M:%S", tx "вақт"));
  (tx "th", (tx "%Y-%m-%d %H:%M:%S", tx "เวลา"));
  (tx "tk", (tx "%Y-%m-%d %H:%M:%S", tx "wagt"));
  (tx "tl", (tx "%Y-%m-%d %H:%M:%S", tx "orasan"));
  (tx "tr", (tx "%Y-%m-%d %H:%M:%S", tx "zaman"));
  (tx "tt", (tx "%Y-%m-%d %H:%M:%S", tx "вакыт"));
  (tx "ug", (tx "%Y-%m-%d %H:%M:%S", tx "ۋاقىت"));
  (tx "uk", (tx "%Y-%m-%d %H:%M:%S", tx "час"));
  (tx "ur", (tx "%Y-%m-%d %H:%M:%S", tx "وقت"));
  (tx "uz", (tx "%Y-%m-%d %H:%M:%S", tx "vaqt"));
  (tx "vi", (tx "%Y-%m-%d %H:%M:%S", tx "thời-gian"));
  (tx "x3", (tx "%m/%d/%Y %I:%M:%S %p", tx "time"));
  (tx "x4", (tx "%d-%m-%Y %H.%M:%S", tx "tĳd"));
  (tx "xh", (tx "%Y-%m-%d %H:%M:%S", tx "ixesha"));
  (tx "xx", (tx "%Y-%m-%d %H:%M:%S", tx "time"));
  (tx "yak", (tx "%H:%M:%S %d.%m.%Y", tx "бириэмэ"));
  (tx "yi", (tx "%Y-%m-%d %H:%M:%S", tx "צייַט"));
  (tx "yo", (tx "%Y-%m-%d %H:%M:%S", tx "aago"));
  (tx "zh1", (tx "%Y-%m-%d %H:%M:%S", tx "時間"));
  (tx "zh2", (tx "%Y-%m-%d %H:%M:%S", tx "时间"));
  (tx "zu", (tx "%Y-%m-%d %H:%M:%S", tx "isikhathi"))].
