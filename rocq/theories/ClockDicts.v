(** The words for the units of time in every language (i18n/*/dictionary.h 135-147, CTR_DICT_HOUR,
    CTR_DICT_MINUTE, CTR_DICT_SECOND, CTR_DICT_DAY, CTR_DICT_MONTH, CTR_DICT_YEAR and
    CTR_DICT_WEEK). *)
From Coq Require Import NArith List String.
From Verif Require Import Common Txt ClockModel ClockSpec.
Import ListNotations.
Local Notation "'tx' s" := (lit s%string) (at level 8, s at level 0).

Definition unit_words : list (text * words) := [
  (tx "af", mkWords (tx "uur") (tx "minuut") (tx "tweede") (tx "dag") (tx "maand") (tx "jaar") (tx "week"));
  (tx "am", mkWords (tx "ሰአት") (tx "ደቂቃ") (tx "ሁለተኛ") (tx "ቀን") (tx "ወር") (tx "አመት") (tx "ሳምንት"));
  (tx "ar", mkWords (tx "ساعة") (tx "دقيقة") (tx "ثانيا") (tx "يوم") (tx "شهر") (tx "عام") (tx "أسبوع"));
  (tx "az", mkWords (tx "saat") (tx "dəqiqə") (tx "ikinci") (tx "gün") (tx "ay") (tx "il") (tx "həftə"));
  (tx "be", mkWords (tx "гадзіну") (tx "хвіліна") (tx "другі") (tx "дзень") (tx "месяц") (tx "год") (tx "тыдзень"));
  (tx "bg", mkWords (tx "час") (tx "минута") (tx "втори") (tx "ден") (tx "месец") (tx "година") (tx "седмица"));
  (tx "bn", mkWords (tx "ঘন্টা") (tx "মিনিট") (tx "দ্বিতীয়") (tx "দিন") (tx "মাস") (tx "বছর") (tx "সপ্তাহ"));
  (tx "bs", mkWords (tx "sat") (tx "minutu") (tx "sekunda") (tx "dan") (tx "mesec") (tx "godine") (tx "sedmicu"));
  (tx "ca", mkWords (tx "hores") (tx "minut") (tx "segon") (tx "dia") (tx "mes") (tx "curs") (tx "setmana"));
  (tx "ceb", mkWords (tx "oras") (tx "minuto") (tx "ikaduha") (tx "adlaw") (tx "bulan") (tx "tuig") (tx "semana"));
  (tx "co", mkWords (tx "ora") (tx "minutu") (tx "sicondu") (tx "ghjornu") (tx "mese") (tx "annu") (tx "settimana"));
  (tx "cs", mkWords (tx "hodina") (tx "minuta") (tx "vteřina") (tx "den") (tx "měsíc") (tx "rok") (tx "týden"));
  (tx "cy", mkWords (tx "awr") (tx "munud") (tx "yn-ail") (tx "dydd") (tx "mis") (tx "flwyddyn") (tx "wythnos"));
  (tx "da", mkWords (tx "time") (tx "minut") (tx "anden") (tx "dag") (tx "måned") (tx "år") (tx "uge"));
  (tx "de", mkWords (tx "stunde") (tx "minute") (tx "zweite") (tx "tag") (tx "monat") (tx "jahr") (tx "woche"));
  (tx "el", mkWords (tx "ώρα") (tx "λεπτό") (tx "δεύτερος") (tx "ημέρα") (tx "μήνας") (tx "έτος") (tx "εβδομάδα"));
  (tx "en", mkWords (tx "hour") (tx "minute") (tx "second") (tx "day") (tx "month") (tx "year") (tx "week"));
  (tx "es", mkWords (tx "hora") (tx "minuto") (tx "segundo") (tx "día") (tx "mes") (tx "año") (tx "semana"));
  (tx "et", mkWords (tx "tund") (tx "minut") (tx "teine") (tx "päev") (tx "kuu") (tx "aastal") (tx "nädal"));
  (tx "eu", mkWords (tx "ordu") (tx "minute") (tx "bigarren") (tx "egun") (tx "hileko") (tx "urte") (tx "aste"));
  (tx "fa", mkWords (tx "ساعت") (tx "دقیقه") (tx "دومین") (tx "روز") (tx "ماه") (tx "سال") (tx "هفته"));
  (tx "fi", mkWords (tx "tunnin") (tx "minuutti") (tx "toinen") (tx "päivä") (tx "kuukausi") (tx "vuosi") (tx "viikko"));
  (tx "fr", mkWords (tx "heure") (tx "minute") (tx "seconde") (tx "journée") (tx "mois") (tx "année") (tx "la-semaine"));
  (tx "fy", mkWords (tx "oere") (tx "minút") (tx "twadde") (tx "dei") (tx "moanne") (tx "jier") (tx "wike"));
  (tx "ga", mkWords (tx "uair-an-chloig") (tx "nóiméad") (tx "dara") (tx "lá") (tx "mhí") (tx "bhliain") (tx "seachtain"));
  (tx "gd", mkWords (tx "uair") (tx "mionaid") (tx "an-dàrna") (tx "latha") (tx "mìos") (tx "bliadhna") (tx "seachdain"));
  (tx "gl", mkWords (tx "hora") (tx "minuto") (tx "segundo") (tx "día") (tx "mes") (tx "ano") (tx "semana"));
  (tx "gu", mkWords (tx "કલાક") (tx "મિનિટ") (tx "બીજું") (tx "દિવસ") (tx "માસ") (tx "વર્ષ") (tx "અઠવાડિયું"));
  (tx "ha", mkWords (tx "awa") (tx "minti") (tx "na-biyu") (tx "rana") (tx "wata") (tx "shekara") (tx "mako"));
  (tx "haw", mkWords (tx "hola") (tx "minuke") (tx "ka-lua") (tx "lā") (tx "mahina") (tx "makahiki") (tx "pule"));
  (tx "he", mkWords (tx "שעה") (tx "דקה") (tx "שנייה") (tx "יום") (tx "חודש") (tx "שנה") (tx "שבוע"));
  (tx "hi", mkWords (tx "घण्टा") (tx "मिनट") (tx "सेकंड") (tx "दिन") (tx "महीना") (tx "वर्ष") (tx "सप्ताह"));
  (tx "hmn", mkWords (tx "teev") (tx "feeb") (tx "ob") (tx "nruab-hnub") (tx "lub-hli") (tx "xyoo") (tx "lub-lim-tiam"));
  (tx "hr", mkWords (tx "sat") (tx "minuta") (tx "drugi") (tx "dan") (tx "mjesec") (tx "godina") (tx "tjedan"));
  (tx "ht", mkWords (tx "èdtan") (tx "minit") (tx "dezyèm-fwa") (tx "jou") (tx "mwa") (tx "ane") (tx "semèn"));
  (tx "hu", mkWords (tx "óra") (tx "perc") (tx "második") (tx "nap") (tx "hónap") (tx "év") (tx "hét"));
  (tx "hy", mkWords (tx "ժամ") (tx "րոպե") (tx "երկրորդը") (tx "օր") (tx "ամիս") (tx "տարի") (tx "շաբաթ"));
  (tx "id", mkWords (tx "jam") (tx "menit") (tx "kedua") (tx "hari") (tx "bulan") (tx "tahun") (tx "minggu"));
  (tx "ig", mkWords (tx "elekere") (tx "nkeji") (tx "nke-abuo") (tx "ụbọchị") (tx "ọnwa") (tx "afọ") (tx "izu"));
  (tx "is", mkWords (tx "klukkutíma") (tx "mínútu") (tx "annað") (tx "dagur") (tx "mánuði") (tx "ári") (tx "vika"));
  (tx "it", mkWords (tx "ora") (tx "minuto") (tx "secondo") (tx "giorno") (tx "mese") (tx "anno") (tx "settimana"));
  (tx "ja", mkWords (tx "時間?") (tx "分?") (tx "第二?") (tx "日?") (tx "月?") (tx "年?") (tx "週間?"));
  (tx "jv", mkWords (tx "jam") (tx "menit") (tx "nomer-loro") (tx "dina") (tx "wulan") (tx "taun") (tx "minggu"));
  (tx "ka", mkWords (tx "საათში") (tx "წუთი") (tx "მეორე") (tx "დღეს") (tx "თვე") (tx "წელი") (tx "კვირა"));
  (tx "kk", mkWords (tx "сағат") (tx "минут") (tx "екінші") (tx "күні") (tx "ай") (tx "жылы") (tx "апта"));
  (tx "km", mkWords (tx "ម៉ោង") (tx "នាទី") (tx "ទីពីរ") (tx "ថ្ងៃ?") (tx "ខែ?") (tx "ឆ្នាំ?") (tx "សប្តាហ៍"));
  (tx "kn", mkWords (tx "ಗಂಟೆ") (tx "ನಿಮಿಷ") (tx "ಎರಡನೇ") (tx "ದಿನ") (tx "ತಿಂಗಳು") (tx "ವರ್ಷ") (tx "ವಾರ"));
  (tx "ko", mkWords (tx "시?") (tx "분?") (tx "둘째?") (tx "일?") (tx "달?") (tx "년?") (tx "주?"));
  (tx "ku", mkWords (tx "seet") (tx "deqqe") (tx "duyem") (tx "roj") (tx "meh") (tx "sal") (tx "hefte"));
  (tx "ky", mkWords (tx "саат") (tx "мүнөт") (tx "экинчи") (tx "күн") (tx "ай") (tx "жыл") (tx "жума"));
  (tx "lb", mkWords (tx "stonn") (tx "minutt") (tx "zweeten") (tx "dag") (tx "mount") (tx "joer") (tx "woch"));
  (tx "lo", mkWords (tx "ຊົ່ວໂມງ") (tx "ນາທີ") (tx "ຄັ້ງທີສອງ") (tx "ມື້") (tx "ເດືອນ") (tx "ປີ") (tx "ອາທິດ"));
  (tx "lt", mkWords (tx "valanda") (tx "minutė") (tx "sekundė") (tx "diena") (tx "mėnesis") (tx "metai") (tx "savaitė"));
  (tx "lv", mkWords (tx "stunda") (tx "minūte") (tx "otrais") (tx "dienā") (tx "mēnesī") (tx "gadā") (tx "nedēļā"));
  (tx "mg", mkWords (tx "ora") (tx "minitra") (tx "faharoa") (tx "andro") (tx "volana") (tx "taona") (tx "herinandro"));
  (tx "mi", mkWords (tx "haora") (tx "meneti") (tx "tuarua") (tx "rā") (tx "marama") (tx "tau-maramataka") (tx "wiki"));
  (tx "mk", mkWords (tx "час") (tx "минута") (tx "второ") (tx "ден") (tx "месец") (tx "година") (tx "недела"));
  (tx "ml", mkWords (tx "മണിക്കൂർ") (tx "മിനിറ്റ്") (tx "രണ്ടാമത്തേത്") (tx "ദിവസം") (tx "മാസം") (tx "വർഷം") (tx "ആഴ്ച"));
  (tx "mn", mkWords (tx "цаг") (tx "минут") (tx "хоёрдахь-нь") (tx "өдөр") (tx "сар") (tx "жил") (tx "долоо-хоног"));
  (tx "mo", mkWords (tx "hūr") (tx "minute") (tx "second") (tx "daj") (tx "monż") (tx "jear") (tx "łeek"));
  (tx "mr", mkWords (tx "तास") (tx "मिनिट") (tx "दुसरा") (tx "दिवस") (tx "महिना") (tx "वर्ष") (tx "आठवडा"));
  (tx "ms", mkWords (tx "jam") (tx "minit") (tx "kedua") (tx "hari") (tx "bulan") (tx "tahun") (tx "minggu"));
  (tx "mt", mkWords (tx "siegħa") (tx "minuta") (tx "it-tieni") (tx "jum") (tx "fix-xahar") (tx "sena") (tx "ġimgħa"));
  (tx "my", mkWords (tx "နာရီ?") (tx "မိနစ်?") (tx "ဒုတိယ?") (tx "နေ့?") (tx "လ?") (tx "နှစ်?") (tx "သီတင်းပတ်"));
  (tx "ne", mkWords (tx "घण्टा") (tx "मिनेट") (tx "दोस्रो") (tx "दिन") (tx "महिना") (tx "बर्ष") (tx "हप्ता"));
  (tx "nl", mkWords (tx "uur") (tx "minuut") (tx "seconde") (tx "dag") (tx "maand") (tx "jaar") (tx "week"));
  (tx "no", mkWords (tx "time") (tx "minutt") (tx "sekund") (tx "dag") (tx "måned") (tx "år") (tx "uke"));
  (tx "ny", mkWords (tx "ola") (tx "mphindi") (tx "chachiwiri") (tx "tsiku") (tx "mwezi") (tx "chaka") (tx "sabata"));
  (tx "or", mkWords (tx "ଘଣ୍ଟା") (tx "ମିନିଟ୍ ") (tx "ଦ୍ୱିତୀୟ") (tx "ଦିନ") (tx "ମାସ") (tx "ବର୍ଷ") (tx "ସପ୍ତାହ"));
  (tx "pa", mkWords (tx "ਘੰਟਾ") (tx "ਮਿੰਟ") (tx "ਦੂਜਾ") (tx "ਦਿਨ") (tx "ਮਹੀਨਾ") (tx "ਸਾਲ") (tx "ਹਫ਼ਤਾ"));
  (tx "pap", mkWords (tx "cuant'or") (tx "into") (tx "dos") (tx "dia") (tx "luna") (tx "aña") (tx "siman"));
  (tx "pl", mkWords (tx "godzina") (tx "minuta") (tx "druga") (tx "dzień") (tx "miesiąc") (tx "rok") (tx "tydzień"));
  (tx "ps", mkWords (tx "ساعت") (tx "دقیقه") (tx "دوهم") (tx "ورځ") (tx "میاشت") (tx "کال") (tx "اونۍ"));
  (tx "pt", mkWords (tx "hora") (tx "minuto") (tx "segundo") (tx "dia") (tx "mês") (tx "ano") (tx "semana"));
  (tx "pt_br", mkWords (tx "hora") (tx "minuto") (tx "segundo") (tx "dia") (tx "mês") (tx "ano") (tx "semana"));
  (tx "ro", mkWords (tx "oră") (tx "minut") (tx "secundă") (tx "zi") (tx "lună") (tx "an") (tx "săptămână"));
  (tx "ru", mkWords (tx "час") (tx "минут") (tx "секунд") (tx "день") (tx "месяц") (tx "год") (tx "неделя"));
  (tx "rw", mkWords (tx "isaha") (tx "umunota") (tx "kabiri") (tx "umunsi") (tx "ukwezi") (tx "umwaka") (tx "icyumweru"));
  (tx "sd", mkWords (tx "لاڪ") (tx "نٽ") (tx "يڪنڊ") (tx "ينهن") (tx "هينو") (tx "ال") (tx "فتو"));
  (tx "si", mkWords (tx "පැය") (tx "විනාඩිය") (tx "දෙවැනි") (tx "දිනය") (tx "මස") (tx "අවුරුදු") (tx "සතිය"));
  (tx "sk", mkWords (tx "hodina") (tx "minúta") (tx "druhý") (tx "deň") (tx "mesiac") (tx "rok") (tx "týždeň"));
  (tx "sl", mkWords (tx "uro") (tx "minuto") (tx "drugič") (tx "dan") (tx "mesec") (tx "leto") (tx "teden"));
  (tx "sm", mkWords (tx "itula") (tx "minute") (tx "tulaga-lua") (tx "aso") (tx "masina") (tx "tausaga") (tx "vaiaso"));
  (tx "sn", mkWords (tx "awa") (tx "mineti") (tx "chepiri") (tx "zuva") (tx "mwedzi") (tx "gore") (tx "vhiki"));
  (tx "so", mkWords (tx "saac") (tx "daqiiqad") (tx "labaad") (tx "maalin") (tx "bishii") (tx "sanadka") (tx "toddobaad"));
  (tx "sq", mkWords (tx "orë") (tx "minutë") (tx "i-dytë") (tx "ditë") (tx "muaj") (tx "vit") (tx "javë"));
  (tx "sr", mkWords (tx "сат") (tx "минуту") (tx "друго") (tx "дан") (tx "месец-дана") (tx "године") (tx "Недеља"));
  (tx "st", mkWords (tx "hora") (tx "motsotso") (tx "ea-bobeli") (tx "letsatsi") (tx "khoeli") (tx "selemo") (tx "beke"));
  (tx "su", mkWords (tx "jam") (tx "menit") (tx "kadua") (tx "dinten") (tx "sasih") (tx "sataun") (tx "saminggu"));
  (tx "sv", mkWords (tx "timme") (tx "minut") (tx "andra") (tx "dag") (tx "månad") (tx "år") (tx "vecka"));
  (tx "sw", mkWords (tx "saa") (tx "dakika") (tx "pili") (tx "siku") (tx "mwezi") (tx "mwaka") (tx "wiki"));
  (tx "ta", mkWords (tx "மணி") (tx "நிமிடம்") (tx "இரண்டாவது") (tx "நாள்") (tx "மாதம்") (tx "ஆண்டு") (tx "வாரம்"));
  (tx "te", mkWords (tx "గంట") (tx "నిమిషం") (tx "రెండవ") (tx "రోజు") (tx "నెల") (tx "సంవత్సరం") (tx "వారం"));
  (tx "tg", mkWords (tx "соат") (tx "дақиқа") (tx "дуюм") (tx "рӯз") (tx "моҳ") (tx "сол") (tx "ҳафта"));
  (tx "th", mkWords (tx "ชั่วโมง") (tx "นาที") (tx "ที่สอง") (tx "วัน") (tx "เดือน") (tx "ปี") (tx "สัปดาห์"));
  (tx "tk", mkWords (tx "sagat") (tx "minut") (tx "ikinji") (tx "gün") (tx "aý") (tx "ýyl") (tx "hepde"));
  (tx "tl", mkWords (tx "oras") (tx "minuto") (tx "pangalawa") (tx "araw") (tx "buwan") (tx "taon") (tx "linggo"));
  (tx "tr", mkWords (tx "saat") (tx "dakika") (tx "ikinci") (tx "gün") (tx "ay") (tx "yıl") (tx "hafta"));
  (tx "tt", mkWords (tx "сәгать") (tx "минут") (tx "икенче") (tx "көн") (tx "ай") (tx "ел") (tx "атна"));
  (tx "ug", mkWords (tx "سائەت") (tx "مىنۇت") (tx "ئىككىنچى") (tx "كۈن") (tx "ئاي") (tx "يىل") (tx "ھەپتە"));
  (tx "uk", mkWords (tx "година") (tx "хвилина") (tx "другий") (tx "день") (tx "місяць") (tx "рік") (tx "тиждень"));
  (tx "ur", mkWords (tx "گھنٹے") (tx "منٹ") (tx "دوسرا") (tx "دن") (tx "مہینہ") (tx "سال") (tx "ہفتہ"));
  (tx "uz", mkWords (tx "soat") (tx "daqiqa") (tx "ikkinchi") (tx "kun") (tx "oy") (tx "yil") (tx "hafta"));
  (tx "vi", mkWords (tx "giờ") (tx "phút") (tx "thứ-hai") (tx "ngày") (tx "tháng") (tx "năm") (tx "tuần"));
  (tx "x3", mkWords (tx "hour") (tx "minute") (tx "second") (tx "day") (tx "month") (tx "year") (tx "week"));
  (tx "x4", mkWords (tx "uur") (tx "minuut") (tx "seconde") (tx "dag") (tx "maand") (tx "jaar") (tx "week"));
  (tx "xh", mkWords (tx "yure") (tx "mzuzu") (tx "isibini") (tx "usuku") (tx "inyanga") (tx "unyaka") (tx "iveki"));
  (tx "xx", mkWords (tx "hour") (tx "minute") (tx "second") (tx "day") (tx "month") (tx "year") (tx "week"));
  (tx "yak", mkWords (tx "час") (tx "минут") (tx "секунд") (tx "день") (tx "месяц") (tx "год") (tx "неделя"));
  (tx "yi", mkWords (tx "שעה") (tx "מינוט") (tx "סעקונדע") (tx "טאָג") (tx "חודש") (tx "יאָר") (tx "וואָך"));
  (tx "yo", mkWords (tx "wakati") (tx "iseju") (tx "ikeji") (tx "ọjọ") (tx "osù") (tx "ọdun") (tx "ọsẹ"));
  (tx "zh1", mkWords (tx "小時") (tx "分鐘") (tx "第二") (tx "哪天") (tx "哪月") (tx "哪年") (tx "哪週"));
  (tx "zh2", mkWords (tx "小时") (tx "分钟") (tx "第二") (tx "哪天") (tx "月份") (tx "哪年") (tx "星期"));
  (tx "zu", mkWords (tx "ihora") (tx "umzuzu") (tx "okwesibili") (tx "usuku") (tx "inyanga") (tx "unyaka") (tx "isonto"))].

Fixpoint prefixb (a b : text) : bool :=
  match a, b with
  | [], _ => true
  | x :: a, y :: b => if N.eqb x y then prefixb a b else false
  | _ :: _, [] => false
  end.
Fixpoint distinctb (seen l : list text) : bool :=
  match l with
  | [] => true
  | a :: r => forallb (fun b => negb (prefixb a b)) seen && distinctb (a :: seen) r
  end.
Definition words_distinctb (w : words) : bool :=
  let l := [w_hour w; w_minute w; w_second w; w_day w; w_month w; w_year w; w_week w] in
  forallb (fun a => negb (existsb (N.eqb 0) a)) l && distinctb [] l.
Lemma prefixb_ok a : forall b, prefix a b -> prefixb a b = true.
Proof.
  induction a as [|x a IH]; intros b (c & ->); [reflexivity|].
  cbn. rewrite N.eqb_refl. apply IH. now exists c.
Qed.
Lemma distinctb_ok l : forall seen, distinctb seen l = true -> distinct seen l.
Proof.
  induction l as [|a r IH]; intros seen H; [exact I|].
  cbn [distinctb] in H. apply andb_prop in H. destruct H as (A & B). split; [|now apply IH].
  apply Forall_forall. intros b Hb P. rewrite forallb_forall in A. specialize (A b Hb).
  rewrite (prefixb_ok a b P) in A. discriminate.
Qed.
Lemma words_distinctb_ok w : words_distinctb w = true -> words_distinct w.
Proof.
  unfold words_distinctb. intros H. apply andb_prop in H. destruct H as (A & B). split.
  - apply Forall_forall. intros a Ha Z. rewrite forallb_forall in A. specialize (A a Ha).
    apply Bool.negb_true_iff in A. assert (T : existsb (N.eqb 0) a = true) by (apply existsb_exists; exists 0%N; auto).
    congruence.
  - now apply distinctb_ok.
Qed.
Lemma languages : Forall (fun p => words_distinct (snd p)) unit_words.
Proof.
  assert (H : forallb (fun p => words_distinctb (snd p)) unit_words = true) by (vm_compute; reflexivity).
  rewrite forallb_forall in H. apply Forall_forall. intros p Hp. apply words_distinctb_ok. now apply H.
Qed.
