(** The headers of all languages (i18n/*/dictionary.h 1-201).  [columns]: the keys in the order of the headers, and where the value
    is: in the table of words (MsgDicts1.v to MsgDicts4.v, in the order of RegTable.macros) or, for the others, in [others]. *)
From Coq Require Import List String.
Import ListNotations.
Local Open Scope string_scope.

Definition columns : list (string * (bool * nat)) := [
  ("CTR_DICT_CODEGEN_MAP_NEW", (false, 0));
  ("CTR_DICT_CODEGEN_MAP_PUT", (false, 1));
  ("CTR_DICT_CODEGEN_MAP_PUT_AT", (false, 2));
  ("CTR_DICT_CODEGEN_ARRAY_NEW", (false, 3));
  ("CTR_DICT_CODEGEN_ARRAY_NEW_PUSH", (false, 4));
  ("CTR_DICT_END_OF_LINE", (false, 5));
  ("CTR_DICT_NIL", (true, 162));
  ("CTR_DICT_BOOLEAN", (true, 163));
  ("CTR_DICT_TRUE", (true, 164));
  ("CTR_DICT_FALSE", (true, 165));
  ("CTR_DICT_NUMBER", (true, 166));
  ("CTR_DICT_STRING", (true, 167));
  ("CTR_DICT_TASK", (true, 168));
  ("CTR_DICT_OBJECT", (true, 161));
  ("CTR_DICT_ARRAY_OBJECT", (true, 169));
  ("CTR_DICT_MAP_OBJECT", (true, 170));
  ("CTR_DICT_PROGRAM", (true, 173));
  ("CTR_DICT_FILE", (true, 172));
  ("CTR_DICT_MOMENT", (true, 174));
  ("CTR_DICT_VAR_ICON", (false, 6));
  ("CTR_DICT_ME_ICON", (false, 7));
  ("CTR_DICT_MY_ICON", (false, 8));
  ("CTR_DICT_BULLET", (true, 93));
  ("CTR_DICT_SYMBOL_EQUALS", (true, 2));
  ("CTR_DICT_PLUS", (true, 33));
  ("CTR_DICT_MINUS", (true, 35));
  ("CTR_DICT_MULTIPLIER", (true, 37));
  ("CTR_DICT_DIVISION", (true, 39));
  ("CTR_DICT_GREATER", (true, 41));
  ("CTR_DICT_LESS", (true, 43));
  ("CTR_DICT_AT_SYMBOL", (true, 102));
  ("CTR_DICT_PEN_ICON", (true, 171));
  ("CTR_DICT_NEW_ARRAY_AND_PUSH_SYMBOL", (true, 92));
  ("CTR_DICT_GREATER_OR_EQUAL_SYMBOL", (true, 42));
  ("CTR_DICT_LESS_OR_EQUAL_SYMBOL", (true, 44));
  ("CTR_DICT_UNEQUALS_SYMBOL", (true, 3));
  ("CTR_DICT_NEW", (true, 0));
  ("CTR_DICT_EQUALS", (true, 1));
  ("CTR_DICT_AND", (true, 28));
  ("CTR_DICT_OR", (true, 30));
  ("CTR_DICT_MODULO", (true, 45));
  ("CTR_DICT_NOR", (true, 29));
  ("CTR_DICT_ONDO", (true, 4));
  ("CTR_DICT_TYPE", (true, 9));
  ("CTR_DICT_ISNIL", (true, 10));
  ("CTR_DICT_MYSELF", (true, 11));
  ("CTR_DICT_DO", (true, 12));
  ("CTR_DICT_DONE", (true, 13));
  ("CTR_DICT_IFFALSE", (true, 14));
  ("CTR_DICT_IFTRUE", (true, 15));
  ("CTR_DICT_WHILE", (true, 91));
  ("CTR_DICT_MESSAGEARGS", (true, 16));
  ("CTR_DICT_MESSAGE", (false, 9));
  ("CTR_DICT_LEARN", (true, 21));
  ("CTR_DICT_BREAK", (true, 24));
  ("CTR_DICT_CONTINUE", (true, 25));
  ("CTR_DICT_ELSE", (true, 26));
  ("CTR_DICT_NOT", (true, 27));
  ("CTR_DICT_TONUMBER", (true, 18));
  ("CTR_DICT_ITONUMBER", (true, 77));
  ("CTR_DICT_TOSTRING", (true, 17));
  ("CTR_DICT_CHAR_AT_SET", (true, 68));
  ("CTR_DICT_EITHEROR", (true, 31));
  ("CTR_DICT_BY_SET", (true, 114));
  ("CTR_DICT_FLOOR", (true, 46));
  ("CTR_DICT_CEIL", (true, 47));
  ("CTR_DICT_ROUND", (true, 48));
  ("CTR_DICT_ABS", (true, 49));
  ("CTR_DICT_SQRT", (true, 50));
  ("CTR_DICT_POWER", (true, 51));
  ("CTR_DICT_MIN", (true, 108));
  ("CTR_DICT_MAX", (true, 109));
  ("CTR_DICT_ODD", (true, 52));
  ("CTR_DICT_EVEN", (true, 53));
  ("CTR_DICT_POS", (true, 54));
  ("CTR_DICT_NEG", (true, 55));
  ("CTR_DICT_TOBOOL", (true, 19));
  ("CTR_DICT_RANDOM_NUM_BETWEEN", (true, 57));
  ("CTR_DICT_LENGTH", (true, 65));
  ("CTR_DICT_FROM_LENGTH", (true, 66));
  ("CTR_DICT_TRIM", (true, 67));
  ("CTR_DICT_AT", (true, 101));
  ("CTR_DICT_POSITION_SET", (true, 100));
  ("CTR_DICT_INDEX_OF", (true, 69));
  ("CTR_DICT_LAST_INDEX_OF", (true, 70));
  ("CTR_DICT_REPLACE_WITH", (true, 71));
  ("CTR_DICT_SPLIT", (true, 72));
  ("CTR_DICT_SKIP", (true, 75));
  ("CTR_DICT_RUN", (true, 83));
  ("CTR_DICT_APPLY_TO", (true, 84));
  ("CTR_DICT_APPLY_TO_AND", (true, 85));
  ("CTR_DICT_VALUE_SET", (true, 87));
  ("CTR_DICT_ERROR", (true, 88));
  ("CTR_DICT_CATCH", (true, 89));
  ("CTR_DICT_PUSH_SYMBOL", (true, 94));
  ("CTR_DICT_SHIFT", (true, 96));
  ("CTR_DICT_COUNT", (true, 97));
  ("CTR_DICT_JOIN", (true, 98));
  ("CTR_DICT_POP", (true, 99));
  ("CTR_DICT_SORT", (true, 103));
  ("CTR_DICT_PUT_AT", (true, 104));
  ("CTR_DICT_MAP", (true, 106));
  ("CTR_DICT_EACH", (true, 107));
  ("CTR_DICT_WRITE", (true, 118));
  ("CTR_DICT_PATH", (true, 121));
  ("CTR_DICT_READ", (true, 122));
  ("CTR_DICT_APPEND", (true, 76));
  ("CTR_DICT_PREPEND", (true, 95));
  ("CTR_DICT_EXISTS", (true, 123));
  ("CTR_DICT_SIZE", (true, 124));
  ("CTR_DICT_DELETE", (true, 125));
  ("CTR_DICT_USE_SET", (true, 139));
  ("CTR_DICT_ARRAY", (true, 126));
  ("CTR_DICT_END", (true, 141));
  ("CTR_DICT_ARGUMENT", (true, 127));
  ("CTR_DICT_ARGUMENT_COUNT", (true, 128));
  ("CTR_DICT_WAIT_FOR_PASSW", (true, 140));
  ("CTR_DICT_WAIT_FOR_INPUT", (true, 130));
  ("CTR_DICT_INPUT", (true, 136));
  ("CTR_DICT_FLUSH", (true, 137));
  ("CTR_DICT_WAIT", (true, 142));
  ("CTR_DICT_TIME", (true, 143));
  ("CTR_DICT_RESPOND_TO", (true, 5));
  ("CTR_DICT_RESPOND_TO_AND", (true, 6));
  ("CTR_DICT_SHELL", (true, 135));
  ("CTR_DICT_SWEEP", (true, 132));
  ("CTR_DICT_MEMORY_LIMIT", (true, 133));
  ("CTR_DICT_MEMORY", (true, 138));
  ("CTR_DICT_GC_MODE", (true, 134));
  ("CTR_DICT_HASH_WITH_KEY", (true, 78));
  ("CTR_DICT_CHARACTERS", (true, 79));
  ("CTR_DICT_QUALIFIER_SET", (true, 58));
  ("CTR_DICT_QUALIFIER", (true, 59));
  ("CTR_DICT_NEW_SET", (true, 120));
  ("CTR_DICT_HOUR", (true, 150));
  ("CTR_DICT_HOUR_SET", (true, 151));
  ("CTR_DICT_MINUTE_SET", (true, 153));
  ("CTR_DICT_MINUTE", (true, 152));
  ("CTR_DICT_SECOND_SET", (true, 155));
  ("CTR_DICT_SECOND", (true, 154));
  ("CTR_DICT_DAY", (true, 144));
  ("CTR_DICT_DAY_SET", (true, 145));
  ("CTR_DICT_WEEK", (true, 158));
  ("CTR_DICT_WEEK_SET", (false, 10));
  ("CTR_DICT_MONTH", (true, 146));
  ("CTR_DICT_MONTH_SET", (true, 147));
  ("CTR_DICT_YEAR", (true, 148));
  ("CTR_DICT_RAW", (true, 56));
  ("CTR_DICT_YEAR_SET", (true, 149));
  ("CTR_DICT_WEEK_DAY", (true, 156));
  ("CTR_DICT_YEAR_DAY", (true, 157));
  ("CTR_DICT_ZONE", (true, 159));
  ("CTR_DICT_ZONE_SET", (true, 160));
  ("CTR_DICT_ADD_SET", (true, 34));
  ("CTR_DICT_SUBTRACT_SET", (true, 36));
  ("CTR_DICT_MULTIPLIER_SET", (true, 38));
  ("CTR_DICT_DIVIDER_SET", (true, 40));
  ("CTR_DICT_LAST", (true, 110));
  ("CTR_DICT_FIRST", (true, 112));
  ("CTR_DICT_SECOND_LAST", (true, 111));
  ("CTR_DICT_FILL_WITH", (true, 113));
  ("CTR_DICT_SPLICE", (true, 105));
  ("CTR_DICT_VALUES", (true, 116));
  ("CTR_DICT_ENTRIES", (true, 115));
  ("CTR_DICT_COMPARE_SET", (true, 81));
  ("CTR_DICT_HAS", (true, 117));
  ("CTR_DICT_COPY", (true, 32));
  ("CTR_DICT_CASE_DO", (true, 20));
  ("CTR_DICT_STOP", (true, 119));
  ("CTR_DICT_ASCII_UPPER_CASE", (true, 73));
  ("CTR_DICT_ASCII_LOWER_CASE", (true, 74));
  ("CTR_DICT_CONTAINS", (true, 80));
  ("CTR_DICT_APPLY_TO_AND_AND", (true, 86));
  ("CTR_DICT_ENVIRONMENT_VARIABLE", (true, 129));
  ("CTR_DICT_SET_ENVIRONMENT_VARIABLE", (true, 131));
  ("CTR_DICT_RESPOND_TO_AND_AND", (true, 7));
  ("CTR_DICT_RESPOND_TO_AND_AND_AND", (true, 8));
  ("CTR_DICT_CURRENT_TASK", (false, 11));
  ("CTR_DICT_NUM_DEC_SEP", (false, 12));
  ("CTR_DICT_NUM_THO_SEP", (false, 13));
  ("CTR_DICT_QUOT_OPEN", (false, 14));
  ("CTR_DICT_QUOT_CLOSE", (false, 15));
  ("CTR_DICT_MESSAGE_CHAIN", (false, 16));
  ("CTR_DICT_ASSIGN", (false, 17));
  ("CTR_DICT_PAREN_OPEN", (false, 18));
  ("CTR_DICT_PAREN_CLOSE", (false, 19));
  ("CTR_DICT_BLOCK_START", (false, 20));
  ("CTR_DICT_BLOCK_END", (false, 21));
  ("CTR_DICT_PARAMETER_PREFIX", (false, 22));
  ("CTR_DICT_RETURN", (false, 23));
  ("CTR_DICT_CODE", (true, 22));
  ("CTR_DICT_PROCEDURE", (true, 90));
  ("CTR_DICT_TOOBJECT", (true, 82));
  ("CTR_DICT_PATH_OBJECT", (true, 176));
  ("CTR_DICT_CMD_OBJECT", (true, 175));
  ("CTR_DICT_RECURSIVE", (true, 23));
  ("CTR_DICT_MATH_SIN", (true, 60));
  ("CTR_DICT_MATH_COS", (true, 61));
  ("CTR_DICT_MATH_TAN", (true, 62));
  ("CTR_DICT_MATH_ATAN", (true, 63));
  ("CTR_DICT_MATH_LOG", (true, 64))].

Definition others : list (string * list string) := [
  ("af", ["(Lys nuwe) "; "sit:"; " by:"; "Reeks nuwe "; "Reeks ← "; "."; ">>"; "self"; "own"; "boodskap:"; "week:"; "hierdie-kode-blok"; ","; "."; "['"; "']"; ","; ":="; "("; ")"; "{"; "}"; ":"; "<-"]);
  ("am", ["(ዝርዝር አዲስ) "; "ነገር:"; " ቦታ:"; "ተከታታይ አዲስ "; "ተከታታይ ← "; "."; "var"; "self"; "own"; "መልእክት:"; "ሳምንት:"; "ይህ-ሥራ"; ","; "."; "['"; "']"; ","; ":="; "("; ")"; "{"; "}"; ":"; "<-"]);
  ("ar", ["(خريطة جديد) "; "ضع:"; " في:"; "قائمة جديد "; "قائمة ← "; "."; "var"; "self"; "own"; "رسالة:"; "أسبوع:"; "كتلة-التعليمات-البرمجية-هذه"; ","; "."; "['"; "']"; "،"; ":="; "("; ")"; "{"; "}"; ":"; "<-"]);
  ("az", ["(Siyahı yeni) "; "obyekt:"; " yer:"; "Seriya yeni "; "Seriya ← "; "."; "var"; "self"; "own"; "mesaj:"; "_həftə:"; "bu-kod-bloku"; ","; "."; "['"; "']"; ","; ":="; "("; ")"; "{"; "}"; ":"; "<-"]);
  ("be", ["(Карта новы) "; "пакласці:"; " у:"; "Спіс новы "; "Спіс ← "; "."; "☞"; "⛏"; "⚿"; "паведамленне:"; "тыдзень:"; "гэты блок кода"; ","; "."; "‘"; "’"; ","; "≔"; "("; ")"; "{"; "}"; ":"; "↲"]);
  ("bg", ["(карта нов) "; "слагам:"; " на-адрес:"; "списък нов "; "списък ← "; "."; "var"; "self"; "own"; "съобщение:"; "седмица:"; "този-код-блок"; ","; "."; "['"; "']"; ","; ":="; "("; ")"; "{"; "}"; ":"; "<-"]);
  ("bn", ["(মানচিত্র নতুন) "; "করা:"; " হয়:"; "তালিকা নতুন "; "তালিকা ← "; "."; "var"; "self"; "own"; "বার্তা:"; "সপ্তাহ:"; "এই-কোড-ব্লক"; ","; "."; "['"; "']"; ","; ":="; "("; ")"; "{"; "}"; ":"; "<-"]);
  ("bs", ["(Mapa novo) "; "stavi:"; " sa:"; "Lista novo "; "Lista ← "; "."; "var"; "self"; "own"; "poruka:"; "sedmica:"; "ovaj-blok-kodova"; ","; "."; "['"; "']"; ","; ":="; "("; ")"; "{"; "}"; ":"; "<-"]);
  ("ca", ["(Mapa nou) "; "posar:"; " a:"; "Llista nou "; "Llista ← "; "."; "var"; "self"; "own"; "missatge:"; "setmana:"; "aquesta-tasca"; ","; "."; "['"; "']"; ","; ":="; "("; ")"; "{"; "}"; ":"; "<-"]);
  ("ceb", ["(Mapa bag-o-nga) "; "gibutang:"; " sa:"; "Paglista bag-o-nga "; "Paglista ← "; "."; "var"; "self"; "own"; "mensahe:"; "_semana:"; "kini-nga-code-block"; ","; "."; "['"; "']"; ","; ":="; "("; ")"; "{"; "}"; ":"; "<-"]);
  ("co", ["(Lista novu) "; "mette:"; " à:"; "Serie novu "; "Serie ← "; "."; "var"; "self"; "own"; "missaghju:"; "settimana:"; "stu-codice-di-còdice"; ","; "."; "['"; "']"; ","; ":="; "("; ")"; "{"; "}"; ":"; "<-"]);
  ("cs", ["(Mapa nový) "; "umístit:"; " na:"; "Seznam nový "; "Seznam ← "; "."; "var"; "self"; "own"; "zpráva:"; "týden:"; "tento-blok-kódu"; ","; " "; "['"; "']"; ","; ":="; "("; ")"; "{"; "}"; ":"; "<-"]);
  ("cy", ["(Map newydd) "; "rhoi:"; " yn:"; "Rhestr newydd "; "Rhestr ← "; "."; "var"; "self"; "own"; "neges:"; "wythnos:"; "y-bloc-cod-hwn"; ","; "."; "['"; "']"; ","; ":="; "("; ")"; "{"; "}"; ":"; "<-"]);
  ("da", ["(Liste ny) "; "sætte:"; " på:"; "Række ny "; "Række ← "; "."; "var"; "self"; "own"; "besked:"; "uge:"; "aktuelle-opgave"; ","; "."; "['"; "']"; ","; ":="; "("; ")"; "{"; "}"; ":"; "<-"]);
  ("de", ["(Liste neu) "; "setzen:"; " auf:"; "Serie neu "; "Serie ← "; "."; "var"; "self"; "own"; "nachricht:"; "woche:"; "diese-Aufgabe"; ","; "."; "['"; "']"; ","; ":="; "("; ")"; "{"; "}"; ":"; "<-"]);
  ("el", ["(Λίστα νέος) "; "βάλτε:"; " στη-διεύθυνση:"; "Σειρά νέος "; "Σειρά ← "; "."; "var"; "self"; "own"; "μήνυμα:"; "εβδομάδα:"; "αυτό-το-μπλοκ-κώδικα"; ","; "."; "['"; "']"; ","; ":="; "("; ")"; "{"; "}"; ":"; "<-"]);
  ("en", ["(List new) "; "put:"; " at:"; "Sequence new "; "Sequence ← "; "."; ">>"; "self"; "own"; "message:"; "week:"; "this-task"; "."; ","; "['"; "']"; ","; ":="; "("; ")"; "{"; "}"; ":"; "<-"]);
  ("es", ["(Lista nuevo) "; "poner:"; " en:"; "Serie nuevo"; "Serie ← "; "."; ">>"; "yo"; "mi"; "mensaje:"; "semana:"; "la-tarea-actual"; ","; "."; "['"; "']"; ","; ":="; "("; ")"; "{"; "}"; ":"; "<-"]);
  ("et", ["(Nimekiri uus) "; "panna:"; " juures:"; "Seeria uus "; "Seeria ← "; "."; "var"; "self"; "own"; "teade:"; "nädal:"; "see-koodiplokk"; ","; "."; "['"; "']"; ","; ":="; "("; ")"; "{"; "}"; ":"; "<-"]);
  ("eu", ["(Mapa berriaren) "; "jarri:"; " en:"; "Zerrenda berriaren "; "Zerrenda ← "; "."; "var"; "self"; "own"; "mezua:"; "aste:"; "kode-bloke-hau"; ","; "."; "['"; "']"; ","; ":="; "("; ")"; "{"; "}"; ":"; "<-"]);
  ("fa", ["(نقشه جدید) "; "قرار دهید:"; " در:"; "لیست جدید "; "لیست ← "; "."; ">>"; "⛏"; "⚿"; "پیام:"; "هفته:"; "این بلوک کد"; ","; "."; "‘"; "’"; ","; "≔"; "("; ")"; "{"; "}"; ":"; "↲"]);
  ("fi", ["(Kartta uusi) "; "laita:"; " osoitteessa:"; "Lista uusi "; "Lista ← "; "."; "var"; "self"; "own"; "viesti:"; "viikko:"; "tämän-koodieston"; ","; "."; "['"; "']"; ","; ":="; "("; ")"; "{"; "}"; ":"; "<-"]);
  ("fr", ["(Liste nouveau) "; "mettre:"; " à:"; "Série nouveau "; "Série ← "; "."; "var"; "self"; "own"; "message:"; "la-semaine:"; "ce-bloc-de-code"; ","; "."; "['"; "']"; ","; ":="; "("; ")"; "{"; "}"; ":"; "<-"]);
  ("fy", ["(List nĳ) "; "set: "; " by:"; "Searje nĳ "; "Searje ← "; "."; "var"; "self"; "own"; "berjocht:"; "wike:"; "dizze-taak"; ","; "."; "['"; "']"; ","; ":="; "("; ")"; "{"; "}"; ":"; "<-"]);
  ("ga", ["(Léarscáil nua) "; "put:"; " at:"; "Liosta nua "; "Liosta ← "; "."; "var"; "self"; "own"; "teachtaireacht:"; "seachtain:"; "an-bloc-cód-seo"; ","; "."; "['"; "']"; ","; ":="; "("; ")"; "{"; "}"; ":"; "<-"]);
  ("gd", ["(Mapa ùr) "; "cuir:"; " le:"; "Liosta ùr "; "Liosta ← "; "."; "var"; "self"; "own"; "teachdaireachd:"; "seachdain:"; "bloc-a-']chòd-seo"; ","; "."; "['"; "']"; ","; ":="; "("; ")"; "{"; "}"; ":"; "<-"]);
  ("gl", ["(Mapa novo) "; "poñer:"; " en:"; "Lista novo "; "Lista ← "; "."; "var"; "self"; "own"; "mensaxe:"; "semana:"; "este-bloque-de-código"; ","; "."; "['"; "']"; ","; ":="; "("; ")"; "{"; "}"; ":"; "<-"]);
  ("gu", ["(યાદી નવું) "; "મૂકો:"; " પર:"; "કતાર નવું "; "કતાર ← "; "."; "var"; "self"; "own"; "સંદેશ:"; "સપ્તાહ:"; "આ-કોડ-અવરોધિત"; ","; "."; "['"; "']"; ","; ":="; "("; ")"; "{"; "}"; ":"; "<-"]);
  ("ha", ["(Taswira sabo) "; "sanya:"; " a:"; "Jerin sabo "; "Jerin ← "; "."; "var"; "self"; "own"; "sako:"; "mako:"; "wannan-toshe-lambar"; ","; "."; "“"; "”"; ","; ":="; "("; ")"; "{"; "}"; ":"; "<-"]);
  ("haw", ["(Papa-inoa hou) "; "waiho:"; " ma:"; "Moʻo hou "; "Moʻo ← "; "."; "var"; "self"; "own"; "']ōlelo:"; "pule:"; "pāʻālua-code"; ","; "."; "['"; "']"; ","; ":="; "("; ")"; "{"; "}"; ":"; "<-"]);
  ("he", ["(מפה חדש) "; "לשים:"; " _ב:"; "רשימה חדש "; "רשימה ← "; "."; "☞"; "⛏"; "⚿"; "הודעה:"; "שבוע:"; "חסימת קוד זו"; ","; "."; "‘"; "’"; ","; "≔"; "("; ")"; "{"; "}"; ":"; "↲"]);
  ("hi", ["(नक्शा नया) "; "रखना:"; " पर:"; "सूची नया "; "सूची ← "; "।"; "var"; "self"; "own"; "संदेश:"; "सप्ताह:"; "यह-सूत्र-स्थान-है"; "."; ","; "['"; "']"; ","; ":="; "("; ")"; "{"; "}"; ":"; "<-"]);
  ("hmn", ["(Daim-ntawv-qhia tshiab) "; "muab:"; " rau:"; "Sau tshiab "; "Sau ← "; "."; "var"; "self"; "own"; "cov-lus:"; "lub-lim-tiam:"; "cov-lej-no"; ","; "."; "['"; "']"; ","; ":="; "("; ")"; "{"; "}"; ":"; "<-"]);
  ("hr", ["(Popis novi) "; "staviti:"; " na:"; "Serija novi "; "Serija ← "; "."; "var"; "self"; "own"; "poruka:"; "tjedan:"; "to-kod-blok"; ","; "."; "['"; "']"; ","; ":="; "("; ")"; "{"; "}"; ":"; "<-"]);
  ("ht", ["(Kat nouvo) "; "mete:"; " nan:"; "Lis nouvo "; "Lis ← "; "."; "var"; "self"; "own"; "mesaj:"; "semèn:"; "blòk-kòd-sa-a"; ","; "."; "['"; "']"; ","; ":="; "("; ")"; "{"; "}"; ":"; "<-"]);
  ("hu", ["(Lista új) "; "magyarán:"; " itt:"; "Sorozat új "; "Sorozat ← "; "."; "var"; "self"; "own"; "üzenet:"; "hét:"; "aktuális-feladat"; ","; "."; "['"; "']"; ","; ":="; "("; ")"; "{"; "}"; ":"; "<-"]);
  ("hy", ["(ցուցակը նոր) "; "տալ."; " համար."; "շարքը նոր "; "շարքը ← "; ":"; "var"; "self"; "own"; "հաղորդագրություն."; "շաբաթ."; "այս-կոդով-բլոկը"; ","; "."; "['"; "']"; ","; "≔"; "("; ")"; "{"; "}"; "."; "<-"]);
  ("id", ["(Daftar baru) "; "menempatkan:"; " di:"; "Seri baru "; "Seri ← "; "."; "var"; "self"; "own"; "pesan:"; "minggu:"; "blok-kode-ini"; ","; "."; "['"; "']"; ","; ":="; "("; ")"; "{"; "}"; ":"; "<-"]);
  ("ig", ["(Maapụ ohuru) "; "tinye:"; " na:"; "Ndepụta ohuru "; "Ndepụta ← "; "."; "var"; "self"; "own"; "ozi:"; "izu:"; "ngọnye-koodu-a"; ","; "."; "['"; "']"; ","; ":="; "("; ")"; "{"; "}"; ":"; "<-"]);
  ("is", ["(Listi nýtt) "; "settu:"; " í:"; "Röð nýtt "; "Röð ← "; "."; "var"; "self"; "own"; "skilaboð:"; "vika:"; "núverandi-verkefni"; ","; "."; "['"; "']"; ","; ":="; "("; ")"; "{"; "}"; ":"; "<-"]);
  ("it", ["(Elenco nuovo) "; "mettere:"; " a:"; "Serie nuovo "; "Elenco ← "; "."; "var"; "self"; "own"; "messaggio:"; "settimana:"; "questo-compito"; ","; "."; "['"; "']"; ","; ":="; "("; ")"; "{"; "}"; ":"; "<-"]);
  ("ja", ["(リスト 新着) "; "要素:"; " 値:"; "シリーズ 新着 "; "シリーズ ← "; "."; "var"; "self"; "own"; "メッセージ:"; "週間:"; "現在のタスク"; ","; "."; "['"; "']"; ","; ":="; "("; ")"; "{"; "}"; ":"; "<-"]);
  ("jv", ["(Peta anyar) "; "sijine:"; " ing:"; "Dhaptar anyar "; "Dhaptar ← "; "."; "var"; "self"; "own"; "pesen:"; "minggu:"; "blok-kode-iki"; ","; "."; "['"; "']"; ","; ":="; "("; ")"; "{"; "}"; ":"; "<-"]);
  ("ka", ["(სია ახალი) "; "ადგილი:"; " ობიექტი:"; "სერია ახალი "; "სერია ← "; "."; "var"; "self"; "own"; "გაგზავნა:"; "კვირა:"; "ეს-კოდი-ბლოკი"; ","; "."; "['"; "']"; ","; ":="; "("; ")"; "{"; "}"; ":"; "<-"]);
  ("kk", ["(Карта жаңа) "; "hысан:"; " oрын:"; "Тізім жаңа "; "Тізім ← "; "."; "var"; "self"; "own"; "хабар:"; "апта:"; "ағымдағы-міндет"; ","; "."; "['"; "']"; ","; ":="; "("; ")"; "{"; "}"; ":"; "<-"]);
  ("km", ["(ផែនទី ថ្មី) "; "ដាក់:"; " នៅ:"; "បញ្ជី ថ្មី "; "បញ្ជី ← "; "."; "var"; "self"; "own"; "សារ:"; "សប្ដាហ៍:"; "ប្លុកកូដនេះ"; ","; "."; "['"; "']"; ","; ":="; "("; ")"; "{"; "}"; ":"; "<-"]);
  ("kn", ["(ನಕ್ಷೆ ಹೊಸದು) "; "ಪುಟ್:"; " ನಲ್ಲಿ:"; "ಪಟ್ಟಿ ಹೊಸದು "; "ಪಟ್ಟಿ ← "; "."; "var"; "self"; "own"; "ಸಂದೇಶ:"; "ವಾರ:"; "ಈ-ಕೋಡ್-ಬ್ಲಾಕ್"; ","; "."; "['"; "']"; ","; ":="; "("; ")"; "{"; "}"; ":"; "<-"]);
  ("ko", ["(지도 새로운) "; "협회:"; " 와:"; "명부 새로운 "; "명부 ← "; "."; "☞"; "⛏"; "⚿"; "메시지:"; "주:"; "이 코드 블록"; ","; "."; "‘"; "’"; ","; "≔"; "("; ")"; "{"; "}"; ":"; "↲"]);
  ("ku", ["(Lîsteyek nşh) "; "danîn:"; " li:"; "Rêzek nşh "; "Rêzek ← "; "."; "var"; "self"; "own"; "agah:"; "hefte:"; "ev-kar"; ","; "."; "['"; "']"; ","; ":="; "("; ")"; "{"; "}"; ":"; "<-"]);
  ("ky", ["(карта жаңы) "; "койду:"; " эле:"; "тизме жаңы "; "тизме ← "; "."; "var"; "self"; "own"; "билдирүү:"; "жума:"; "Бул-код-блогу"; ","; "."; "['"; "']"; ","; ":="; "("; ")"; "{"; "}"; ":"; "<-"]);
  ("lb", ["(Lëscht nei) "; "setzen:"; " bei:"; "Serie nei "; "Serie ← "; "."; "var"; "self"; "own"; "noriicht:"; "woch:"; "déi-aktuell-Aufgab"; ","; "."; "['"; "']"; ","; ":="; "("; ")"; "{"; "}"; ":"; "<-"]);
  ("lo", ["(ລາຍຊື່ ໃຫມ່) "; "ໃສ່:"; " ທີ່:"; "ຊຸດ ໃຫມ່ "; "ຊຸດ ← "; "."; "var"; "self"; "own"; "ຂໍ້ຄວາມ:"; "ອາທິດ:"; "ບລັອກລະຫັດນີ້"; ","; "."; "['"; "']"; ","; ":="; "("; ")"; "{"; "}"; ":"; "<-"]);
  ("lt", ["(Map naujas) "; "įdėti:"; " _į:"; "Sąrašas naujas"; "Sąrašas ← "; "."; "var"; "self"; "own"; "žinutė:"; "savaitė:"; "šitas-kodo-blokas"; ","; "."; "['"; "']"; ","; ":="; "("; ")"; "{"; "}"; ":"; "<-"]);
  ("lv", ["(Karte jauns) "; "ievietot:"; " pie:"; "Saraksts jauns "; "Saraksts ← "; "."; "var"; "self"; "own"; "ziņojums:"; "nedēļa:"; "šis-koda-bloks"; ","; "."; "['"; "']"; ","; ":="; "("; ")"; "{"; "}"; ":"; "<-"]);
  ("mg", ["(Map vaovao) "; "hametraka:"; " amin']ny:"; "List vaovao "; "List ← "; "."; "var"; "self"; "own"; "hafatra:"; "herinandro:"; "fehezan-dalàna-ity-andian-tsoratra"; ","; "."; "['"; "']"; ","; ":="; "("; ")"; "{"; "}"; ":"; "<-"]);
  ("mi", ["(Rarangi hou) "; "ahanoa:"; " wahi:"; "Raupapa hou "; "Raupapa ← "; "."; "var"; "self"; "own"; "karere:"; "wiki:"; "poraka-tenei-waehere"; ","; "."; "['"; "']"; ","; ":="; "("; ")"; "{"; "}"; ":"; "<-"]);
  ("mk", ["(Карта ново) "; "стави:"; " на:"; "Листа ново "; "Листа ← "; "."; "var"; "self"; "own"; "порака:"; "недела:"; "овој-блок-за-код"; ","; "."; "['"; "']"; ","; ":="; "("; ")"; "{"; "}"; ":"; "<-"]);
  ("ml", ["(മാപ്പ് പുതിയത്) "; "വസ്തു:"; " സ്ഥാനം:"; "പട്ടിക പുതിയത് "; "പട്ടിക ← "; "."; "var"; "self"; "own"; "സന്ദേശം:"; "ആഴ്ച:"; "ഈ-കോഡ്-ബ്ലോക്ക്"; ","; "."; "['"; "']"; ","; ":="; "("; ")"; "{"; "}"; ":"; "<-"]);
  ("mn", ["(Жагсаалт шинэ) "; "объект:"; " байршил:"; "Цуврал шинэ "; "Цуврал ← "; "."; "var"; "self"; "own"; "мессеж:"; "долоо-хоног:"; "энэ-кодын-блок"; ","; "."; "['"; "']"; ","; ":="; "("; ")"; "{"; "}"; ":"; "<-"]);
  ("mo", ["(Serieă neł) "; "pune:"; " la:"; "Serie neł "; "Serie ← "; "."; "var"; "self"; "own"; "message:"; "łeek:"; "żis-code-block"; ","; "."; "['"; "']"; ","; ":="; "("; ")"; "{"; "}"; ":"; "<-"]);
  ("mr", ["(नकाशा नवीन) "; "ठेवले:"; " येथे:"; "यादी नवीन "; "यादी ← "; "."; "☞"; "⛏"; "⚿"; "संदेशः__:"; "_आठवडा:"; "हा कोड ब्लॉक"; ","; "."; "‘"; "’"; ","; "≔"; "("; ")"; "{"; "}"; ":"; "↲"]);
  ("ms", ["(Peta baru) "; "meletakkan:"; " pada:"; "Senarai baru "; "Senarai ← "; "."; "var"; "self"; "own"; "mesej:"; "minggu:"; "blok-kod-ini"; ","; "."; "['"; "']"; ","; ":="; "("; ")"; "{"; "}"; ":"; "<-"]);
  ("mt", ["(Lista ġdid) "; "tpoġġi:"; " fi:"; "Serje ġdid "; "Serje ← "; "."; "var"; "self"; "own"; "messaġġ:"; "ġimgħa:"; "dan-il-blokka-tal-kodiċi"; ","; "."; "['"; "']"; ","; ":="; "("; ")"; "{"; "}"; ":"; "<-"]);
  ("my", ["(စာရင်း အသစ်) "; "ရွှေ့:"; " သို့:"; "စီးရီး အသစ် "; "စီးရီး ← "; "။"; "var"; "self"; "own"; "သတင်းစကား:"; "ရက်သတ္တပတ်:"; "ဒီကုဒ်ကိုပိတ်ပင်တားဆီးမှု"; ","; "."; "['"; "']"; ","; ":="; "("; ")"; "{"; "}"; ":"; "<-"]);
  ("ne", ["(सूची नयाँ) "; "राख्नुहोस्:"; " मा:"; "शृङ्खला नयाँ "; "शृङ्खला ← "; "."; "var"; "self"; "own"; "सन्देश:"; "हप्ता:"; "यो-कोड-ब्लक"; ","; "."; "['"; "']"; ","; ":="; "("; ")"; "{"; "}"; ":"; "<-"]);
  ("nl", ["(Lijst nieuw) "; "zet:"; " bij:"; "Reeks nieuw "; "Reeks ← "; "."; ">>"; "zelf"; "eigen"; "_bericht:"; "week:"; "deze-taak"; ","; "."; "['"; "']"; ","; ":="; "("; ")"; "{"; "}"; ":"; "<-"]);
  ("no", ["(Liste ny) "; "sagt:"; " at:"; "Rad ny "; "Rad ← "; "."; "var"; "self"; "own"; "beskjed:"; "uke:"; "nåværende-oppgave"; ","; "."; "['"; "']"; ","; ":="; "("; ")"; "{"; "}"; ":"; "<-"]);
  ("ny", ["(Map zatsopano) "; "ikani:"; " pa:"; "Mndandanda zatsopano "; "Mndandanda ← "; "."; "var"; "self"; "own"; "uthenga:"; "sabata:"; "code-block-iyi"; ","; "."; "['"; "']"; ","; ":="; "("; ")"; "{"; "}"; ":"; "<-"]);
  ("or", ["(ମାନଚିତ୍ର ନୂତନ) "; "ବସ୍ତୁ:"; " ସ୍ଥାନ:"; "ତାଲିକା ନୂତନ "; "ତାଲିକା ← "; "."; "☞"; "⛏"; "⚿"; "ବାର୍ତ୍ତା:"; "ସପ୍ତାହ:"; "ଏହି କୋଡ୍ ବ୍ଲକ୍"; ","; "."; "‘"; "’"; ","; "≔"; "("; ")"; "{"; "}"; ":"; "↲"]);
  ("pa", ["(ਨਕਸ਼ਾ ਨਵਾਂ) "; "ਪਾ:"; " ਤੇ:"; "ਸੂਚੀ ਨਵਾਂ "; "ਸੂਚੀ ← "; "."; "var"; "self"; "own"; "ਸੁਨੇਹਾ:"; "ਹਫ਼ਤਾ:"; "ਇਹ-ਕੋਡ-ਬਲਾਕ"; ","; "."; "['"; "']"; ","; ":="; "("; ")"; "{"; "}"; ":"; "<-"]);
  ("pap", ["(Lista notisia) "; "perde:"; " na:"; "Sèt notisia "; "Sèt ← "; "."; "var"; "self"; "own"; "mensahe:"; "siman:"; "e-blue-di-kódigo"; "."; ","; "['"; "']"; ","; ":="; "("; ")"; "{"; "}"; ":"; "<-"]);
  ("pl", ["(Lista nowy) "; "że:"; " jest:"; "Serio nowy "; "Serio ← "; "."; "var"; "self"; "own"; "wiadomość:"; "tydzień:"; "ten-blok-kodu"; ","; "."; "['"; "']"; ","; ":="; "("; ")"; "{"; "}"; ":"; "<-"]);
  ("ps", ["(نقشه نوی) "; "لګول:"; " په:"; "لیست نوی "; "لیست ← "; "."; "var"; "self"; "own"; "پیغام:"; "اونۍ:"; "د-دې-کوډ-بلاک"; ","; "."; "['"; "']"; ","; ":="; "("; ")"; "{"; "}"; ":"; "<-"]);
  ("pt", ["(Mapa novo) "; "colocar:"; " em:"; "Listar novo "; "Listar ← "; "."; "var"; "self"; "own"; "menssagem:"; "semana:"; "este-bloco-de-código"; ","; "."; "“"; "”"; ","; ":="; "("; ")"; "{"; "}"; ":"; "<-"]);
  ("pt_br", ["(Mapa novo) "; "colocar:"; " em:"; "Listar novo "; "Listar ← "; "."; "var"; "self"; "own"; "menssagem:"; "semana:"; "este-bloco-de-código"; ","; "."; "['"; "']"; ","; ":="; "("; ")"; "{"; "}"; ":"; "<-"]);
  ("ro", ["(Hartă crea) "; "pune:"; " la:"; "Listă crea "; "Listă ← "; "."; "var"; "self"; "own"; "mesaj:"; "săptămână:"; "acest-bloc-de-cod"; ","; "."; "['"; "']"; ","; ":="; "("; ")"; "{"; "}"; ":"; "<-"]);
  ("ru", ["(Карта новый) "; "разместить:"; " в:"; "Список новый "; "Список ← "; "."; "дать"; "сам"; "мой"; "сообщение:"; "неделя:"; "этот-блок-кода"; ","; "."; "['"; "']"; ","; ":="; "("; ")"; "{"; "}"; ":"; "<-"]);
  ("rw", ["(Ikarita gishya) "; "shyira:"; " kuri:"; "Urutonde gishya "; "Urutonde ← "; "."; "var"; "self"; "own"; "ubutumwa:"; "icyumweru:"; "iyi-kode"; ","; "."; "['"; "']"; ","; ":="; "("; ")"; "{"; "}"; ":"; "<-"]);
  ("sd", ["(قشو ئون)"; "کيل:"; " تي:"; "سٽ ئون"; "سٽ ← "; "."; "var"; "self"; "own"; "يغام:"; "فتي:"; "يڪوڊبلاڪ"; ","; "."; "['"; "']"; ","; ":="; "("; ")"; "{"; "}"; ":"; "<-"]);
  ("si", ["(සිතියම නව) "; "වස්තුව:"; " ස්ථානය:"; "ලැයිස්තුව නව "; "ලැයිස්තුව ← "; "."; "☞"; "⛏"; "⚿"; "පණිවුඩය:"; "සතිය:"; "මෙම කේත කොටස"; ","; "."; "‘"; "’"; ","; "≔"; "("; ")"; "{"; "}"; ":"; "↲"]);
  ("sk", ["(Mapa nový) "; "povedané:"; " na-adrese:"; "Zoznam nový "; "Zoznam ← "; "."; "var"; "self"; "own"; "správa:"; "týždeň:"; "tento-blok-kódu"; ","; "."; "['"; "']"; ","; ":="; "("; ")"; "{"; "}"; ":"; "<-"]);
  ("sl", ["(Zemljevid novo) "; "dal:"; " na:"; "Seznam novo "; "Seznam ← "; "."; "var"; "self"; "own"; "sporočilo:"; "teden:"; "ta-kodni-blok"; ","; "."; "['"; "']"; ","; ":="; "("; ")"; "{"; "}"; ":"; "<-"]);
  ("sm", ["(Faʻafanua fou) "; "tuʻu:"; " i:"; "Lisi fou "; "Lisi ← "; "."; "var"; "self"; "own"; "feʻau:"; "vaiaso:"; "lenei-poloka-tulafono"; ","; "."; "['"; "']"; ","; ":="; "("; ")"; "{"; "}"; ":"; "<-"]);
  ("sn", ["(Mepu nyowani) "; "isa:"; " pa:"; "Rondedzero nyowani "; "Rondedzero ← "; "."; "var"; "self"; "own"; "meseji:"; "vhiki:"; "iyi-kodhi-block"; ","; "."; "['"; "']"; ","; ":="; "("; ")"; "{"; "}"; ":"; "<-"]);
  ("so", ["(Liiska cusub) "; "walax:"; " meeshaas:"; "Taxane cusub "; "Taxane ← "; "."; "var"; "self"; "own"; "farriin:"; "todobaad:"; "koodhkan-ayaa-xannibaya"; ","; "."; "['"; "']"; ","; ":="; "("; ")"; "{"; "}"; ":"; "<-"]);
  ("sq", ["(Hartë i-ri) "; "vënë:"; " në:"; "Listë i-ri "; "Listë ← "; "."; "var"; "self"; "own"; "mesazhi:"; "javë:"; "ky-bllok-kod"; ","; "."; "['"; "']"; ","; ":="; "("; ")"; "{"; "}"; ":"; "<-"]);
  ("sr", ["(Мапа Нова) "; "пут:"; " ат:"; "Листа Нова "; "Листа ← "; "."; "var"; "self"; "own"; "порука:"; "Недеља:"; "овај-блок-кодова"; ","; "."; "['"; "']"; ","; ":="; "("; ")"; "{"; "}"; ":"; "<-"]);
  ("st", ["(Lethathamo ncha) "; "beha:"; " ka:"; "Letoto ncha "; "Letoto ← "; "."; "var"; "self"; "own"; "molaetsa:"; "beke:"; "mosebetsi-ona"; ","; "."; "['"; "']"; ","; ":="; "("; ")"; "{"; "}"; ":"; "<-"]);
  ("su", ["(Peta anyar) "; "nempatkeun:"; " di:"; "Daptar anyar "; "Daptar ← "; "."; "var"; "self"; "own"; "pesen:"; "minggu:"; "blok-blok-ieu"; ","; "."; "['"; "']"; ","; ":="; "("; ")"; "{"; "}"; ":"; "<-"]);
  ("sv", ["(Lista ny) "; "sätta"; " vid:"; "Serie ny "; "Serie ← "; "."; "var"; "self"; "own"; "meddelande:"; "_vecka:"; "detta-kodblock"; ","; "."; "['"; "']"; ","; ":="; "("; ")"; "{"; "}"; ":"; "<-"]);
  ("sw", ["(Orodha mpya) "; "weka:"; " saa:"; "Msururu mpya "; "Msururu ← "; "."; "var"; "self"; "own"; "ujumbe:"; "wiki:"; "kazi-hii"; ","; "."; "['"; "']"; ","; ":="; "("; ")"; "{"; "}"; ":"; "<-"]);
  ("ta", ["(பட்டியல் புதியது) "; "நகர்த்து:"; " முதல்:"; "வரிசை புதியது "; "வரிசை ← "; "."; "var"; "self"; "own"; "செய்தி:"; "வாரம்:"; "இந்த-குறியீடு-தொகுதி"; ","; "."; "['"; "']"; ","; ":="; "("; ")"; "{"; "}"; ":"; "<-"]);
  ("te", ["(మ్యాప్ కొత్త) "; "చాలు:"; " వద్ద:"; "జాబితా కొత్త "; "జాబితా ← "; "."; "var"; "self"; "own"; "సందేశం:"; "వారం:"; "ఈ-కోడ్-బ్లాక్"; ","; "."; "['"; "']"; ","; ":="; "("; ")"; "{"; "}"; ":"; "<-"]);
  ("tg", ["(Харитаи нав) "; "гузошта:"; " дар:"; "Рӯйхат нав "; "Рӯйхат ← "; "."; "var"; "self"; "own"; "паём:"; "ҳафта:"; "вазифаи-ҷорӣ"; ","; "."; "['"; "']"; ","; ":="; "("; ")"; "{"; "}"; ":"; "<-"]);
  ("th", ["(หนังสือี่ ใหม่) "; "วาง:"; " ที่:"; "ชุด ใหม่ "; "ชุด ← "; "."; "var"; "self"; "own"; "ข้อความ:"; "สัปดาห์:"; "บล็อกรหัสนี้"; ","; "."; "['"; "']"; ","; ":="; "("; ")"; "{"; "}"; ":"; "<-"]);
  ("tk", ["(Sanaw täze) "; "obýekt:"; " ýeri:"; "Seriýa täze "; "Seriýa ← "; "."; "var"; "self"; "own"; "habar:"; "hepde:"; "bu-kod-blok"; ","; "."; "['"; "']"; ","; ":="; "("; ")"; "{"; "}"; ":"; "<-"]);
  ("tl", ["(Map bago) "; "ilagay:"; " sa:"; "Listahan bago "; "Listahan ← "; "."; "var"; "self"; "own"; "mensahe:"; "linggo:"; "ang-block-ng-code-na-ito"; ","; "."; "['"; "']"; ","; ":="; "("; ")"; "{"; "}"; ":"; "<-"]);
  ("tr", ["(Liste yeni) "; "koyun:"; " at:"; "Dizi yeni "; "Dizi ← "; "."; "isim"; "self"; "own"; "İleti:"; "hafta:"; "bu-kod-bloğu"; ","; "."; "['"; "']"; ","; ":="; "("; ")"; "{"; "}"; ":"; "<-"]);
  ("tt", ["(Исемлек яңа) "; "объект:"; " урын:"; "Серияләре яңа "; "Серияләре ← "; "."; "var"; "self"; "own"; "хәбәр:"; "атна:"; "хәзерге-бирем"; ","; "."; "['"; "']"; ","; ":="; "("; ")"; "{"; "}"; ":"; "<-"]);
  ("ug", ["(خەرىتە new) "; "put:"; " at:"; "تىزىملىك new "; "تىزىملىك ← "; "."; "var"; "self"; "own"; "ئۇچۇر:"; "ھەپتە:"; "بۇ-كود-چەكلىمىسى"; ","; "."; "['"; "']"; ","; ":="; "("; ")"; "{"; "}"; ":"; "<-"]);
  ("uk", ["(Карта нові) "; "поставити:"; " у:"; "Список нові "; "Список ← "; "."; "☞"; "⛏"; "⚿"; "повідомлення:"; "тиждень:"; "цей блок коду"; ","; "."; "‘"; "’"; ","; "≔"; "("; ")"; "{"; "}"; ":"; "↲"]);
  ("ur", ["(نقشہ نئی) "; "ڈال:"; " پر:"; "فہرست نئی "; "فہرست ← "; "."; "var"; "self"; "own"; "پیغام:"; "ہفتہ:"; "یہ-کوڈ-بلاک"; ","; "."; "['"; "']"; ","; ":="; "("; ")"; "{"; "}"; ":"; "<-"]);
  ("uz", ["(Ro'yxat yangi) "; "qo'yish:"; " da:"; "Qator yangi "; "Qator ← "; "."; "var"; "self"; "own"; "xabar:"; "hafta:"; "ushbu-kod-bloki"; ","; "."; "['"; "']"; ","; ":="; "("; ")"; "{"; "}"; ":"; "<-"]);
  ("vi", ["(Sách mới) "; "đặt:"; " tại:"; "Loạt mới "; "Loạt ← "; "."; "var"; "self"; "own"; "thông-điệp:"; "tuần:"; "khối-mã-này"; ","; "."; "['"; "']"; ","; ":="; "("; ")"; "{"; "}"; ":"; "<-"]);
  ("x3", ["(Map new) "; "put:"; " at:"; "List new "; "List ← "; "."; "☞"; "⛏"; "⚿"; "message:"; "week:"; "this code block"; "."; ","; "‘"; "’"; ","; "≔"; "("; ")"; "{"; "}"; ":"; "↲"]);
  ("x4", ["(Lĳst nieuw) "; "zet:"; " bĳ:"; "Reeks nieuw "; "Reeks ← "; "."; "☞"; "⛏"; "⚿"; "bericht:"; "week:"; "dit codeblok"; ","; "."; "“"; "”"; ","; "≔"; "("; ")"; "{"; "}"; ":"; "↲"]);
  ("xh", ["(Uluhlu intsha) "; "beka:"; " e:"; "Uthotho intsha "; "Uthotho ← "; "."; "var"; "self"; "own"; "umyalezo:"; "iveki:"; "le-bhloko-ikhowudi"; ","; "."; "['"; "']"; ","; ":="; "("; ")"; "{"; "}"; ":"; "<-"]);
  ("xx", ["(Map new) "; "put:"; " at:"; "List new "; "List ← "; "."; "☞"; "⛏"; "⚿"; "message:"; "week:"; "this code block"; "."; ","; "‘"; "’"; ","; "≔"; "("; ")"; "{"; "}"; ":"; "↲"]);
  ("yak", ["(Карта саҥа) "; "олохсуй:"; " в:"; "Испииһэк саҥа "; "Испииһэк ← "; "."; "var"; "self"; "own"; "биллэрии:"; "неделя:"; "этот-блок-кода"; ","; "."; "«"; "»"; ","; ":="; "("; ")"; "{"; "}"; ":"; "<-"]);
  ("yi", ["(מאפע נייַ) "; "שטעלן:"; " אין:"; "רשימה נייַ "; "רשימה ← "; "."; "☞"; "⛏"; "⚿"; "אָנזאָג:"; "_וואָך:"; "דעם קאָד פאַרשפּאַרן"; ","; "."; "‘"; "’"; ","; "≔"; "("; ")"; "{"; "}"; ":"; "↲"]);
  ("yo", ["(Akojọ tuntun) "; "fi:"; " nipa:"; "Jara tuntun "; "Jara ← "; "."; "var"; "self"; "own"; "ifiranṣẹ:"; "ọsẹ:"; "iṣẹ-ṣiṣe-yii"; ","; "."; "['"; "']"; ","; ":="; "("; ")"; "{"; "}"; ":"; "<-"]);
  ("zh1", ["(列表 新的) "; "将:"; " 设置为:"; "系列 新的 "; "系列 ← "; "."; "var"; "self"; "own"; "信息:"; "週:"; "此代碼塊"; ","; "."; "“"; "”"; ","; ":="; "("; ")"; "{"; "}"; ":"; "<-"]);
  ("zh2", ["(列表 新的) "; "把:"; " 和:"; "系列 新的 "; "系列 ← "; "。"; "var"; "self"; "own"; "信息:"; "星期:"; "当前代码块"; ","; "."; "['"; "']"; ","; ":="; "("; ")"; "{"; "}"; ":"; "<-"]);
  ("zu", ["(Imephu okusha) "; "beka:"; " ngo:"; "Uhlu okusha "; "Uhlu ← "; "."; "var"; "self"; "own"; "umyalezo:"; "isonto:"; "le-khodi-block"; ","; "."; "['"; "']"; ","; ":="; "("; ")"; "{"; "}"; ":"; "<-"])].
