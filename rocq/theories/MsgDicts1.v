(** The words for built-in messages and objects in the languages af to ha (i18n/*/dictionary.h 7-203),
    in the order of [macros] (RegTable.v). *)
From Coq Require Import List String.
Import ListNotations.
Local Open Scope string_scope.

Definition dictionaries1 : list (string * list string) := [
  ("af", ["nuwe"; "gelyk:"; "="; "≠"; "op:doen:"; "reageer:"; "reageer:en:"; "reageer:en:en:"; "reageer:en:en:en:"; "tipe"; "leeg?"; "myself"; "doen"; "gedaan"; "nee:"; "ja:"; "boodskap:argumente:"; "teks"; "aantal"; "ja-of-nee"; "geval:doen:"; "leer:beteken:"; "code"; "rekursief"; "breek"; "aanhou"; "anders:"; "nie"; "en:"; "nie:"; "of:"; "of:of:"; "kopie"; "+"; "voeg:"; "-"; "aftrek:"; "×"; "vermenigvuldig-met:"; "÷"; "verdeel-deur:"; ">"; "≥"; "<"; "≤"; "modulo:"; "afgerond-naar-beneden"; "afgerond-naar-boven"; "afgerond"; "absolute"; "vierkantswortel"; "krag:"; "onewe?"; "ewe?"; "positief-is?"; "negatief?"; "rou"; "tussen:en:"; "kwalifiseer:"; "kwalifikasie"; "sin"; "cos"; "tan"; "atan"; "log"; "lengte"; "vanaf:lengte:"; "verwyder-omliggende-ruimtes"; "letter:"; "vind:"; "duur:"; "vervang:met:"; "verdeel:"; "hoofletters"; "klein"; "slaan-oor:"; "voeg-toe:"; "internasionale-nommer"; "hash:"; "letters"; "bevat:"; "vergelyk:"; "objek"; "voer-uit"; "pas-toe-op:"; "pas-toe-op:en:"; "toe-te-pas-en:en:__:"; "waarde-van:is:"; "fout:"; "fouthantering:"; "prosedure"; "terwyl:"; "←"; "~"; ";"; "voeg-in:"; "neem-die-eerste"; "tel"; "verbind-met:"; "neem-die-laaste"; "posisie:"; "by:"; "?"; "sorteer:"; "sit:by:"; "vervang:lengte:met:"; "lys:"; "elk:"; "minimum"; "maksimum"; "laaste"; "voorlaaste"; "eerste"; "vul:met:"; "per:"; "inskrywings"; "waardes"; "het:"; "skryf:"; "stop"; "nuwe:"; "pad"; "lees"; "bestaan"; "grootte"; "verwyder"; "reeks:"; "argument:"; "argumente"; "omgewing:"; "vra"; "opstel:waarde:"; "skoon"; "geheue:"; "geheue-modus:"; "Opdrag:"; "invoer-data"; "spoel"; "geheue"; "gebruik:"; "vra-wagwoord"; "einde"; "wag:"; "tyd"; "dag"; "dag:"; "maand"; "maand:"; "jaar"; "jaar:"; "uur"; "uur:"; "minuut"; "minuut:"; "tweede"; "tweede:"; "weekdag"; "dag-van-die-jaar"; "week"; "sone"; "sone:"; "Objek"; "Leeg"; "Ja-of-Nee"; "Ja"; "Nee"; "Aantal"; "Teks"; "Taak"; "Reeks"; "Lys"; "Stdout"; "Lêer"; "Program"; "Oomblik"; "Instruksie"; "Pad"]);
  ("am", ["አዲስ"; "ተመሳሳይ:"; "="; "≠"; "ከሆነ:ሥራ:"; "መልሶች:"; "መልሶች:እና:"; "መልሶች:እና:እና:"; "መልሶች:እና:እና:እና:"; "ዓይነት"; "ባዶ?"; "ራሴ"; "መ-ስ-ራ-ት"; "ተጠናቅቋል"; "አይ:"; "አዎ:"; "መልእክት:አባሪ:"; "ግለጽ"; "በቁጥር"; "ውሳኔ"; "ጉዳይ:ያድርጉ:"; "አስታውስ:ትርጉም:"; "መግለፅ"; "እንደገናመመለስ"; "ተወ"; "ተሳፈር"; "አለበለዚያ:"; "ተቃራኒ"; "እና:"; "አይደለም:"; "ወይም:"; "ወይም:ወይም:"; "ይቅዱ"; "+"; "ያክሉ:"; "-"; "መቀነስ:"; "×"; "ተባዝ-በ:"; "÷"; "አካፍል:"; ">"; "≥"; "<"; "≤"; "ሞዱሎ:"; "አፈር"; "ከላይ"; "ዙር"; "የተጠጋጋ"; "ካሬ-ሥር"; "ወደ-ኃይል:"; "ያልተለመደ?"; "እኩል?"; "አዎንታዊ?"; "አሉታዊ?"; "ጥሬ"; "በመካከል:መጨረሻ:"; "ባህሪይ:"; "ባህሪይ"; "sin"; "cos"; "tan"; "atan"; "log"; "ርዝመት"; "ቦታ:ርዝመት:"; "ኮር"; "ቁምፊ:"; "ፈልግ:"; "ፈልግ-ከኋላ:"; "አሮጌ:አዲስ:"; "ቢላዋ:"; "አቢይ-ሆሄ"; "አነስተኛ-ቦርድ"; "ለመዝለል:"; "ቅጥያ:"; "በቁጥር-የውጭ"; "አትም:"; "ቁምፊዎች"; "ይዟል:"; "አወዳድር:"; "እንደ-ዕቃ"; "ጀምር"; "አሰማር:"; "አሰማር:እና:"; "አሰማር:እና:እና:"; "መረጃ:ይዘቶች:"; "ስህተት:"; "አያያዝ-ላይ-ስህተት:"; "ሂደት"; "በጣም-ረጅም:"; "←"; "~"; ";"; "ቅድመ-ቅጥያ:"; "መቁረጥ"; "ቆጠረ"; "ሙጫ:"; "ካፕ"; "ቦታ-ነገር:"; "ቦታ:"; "?"; "ደርድር:"; "ነገር:ቦታ:"; "ተካ:ርዝመት:በ:"; "ጥንዶች:"; "እያንዳንዳቸው:"; "ዝቅተኛ"; "ከፍተኛ"; "የመጨረሻ"; "ሁለተኛ-የመጨረሻ"; "አንደኛ"; "ለመሙላት:ነገር:"; "በ:"; "ግቤቶች"; "ዋጋዎች"; "አለው:"; "ፃፍ:"; "ነጥብ"; "አዲስ:"; "መንገድ"; "አንብብ"; "አለ?"; "ስፋት"; "ሰርዝ"; "ማንሳት:"; "አባሪ:"; "አንዳንድ-አባሪዎች"; "ስም:"; "ጠይቅ"; "ስም:ነገር:"; "ንፁህ-ማህደረ-ትውስታ"; "ማህደረ-ትውስታ:"; "ንጽህና:"; "ማሽን:"; "ግብዓት"; "መፍሰስ"; "ትውስታ"; "መሳሪያዎች:"; "የይለፍ-ቃል-ይጠይቁ"; "መጨረሻ"; "ጠብቅ:"; "ጊዜ"; "ቀን"; "ቀን:"; "ወር"; "ወር:"; "አመት"; "አመት:"; "ሰአት"; "ሰአት:"; "ደቂቃ"; "ደቂቃ:"; "ሁለተኛ"; "ሁለተኛ:"; "የሳምንቱ-ቀናት"; "የአመቱ-ቀን"; "ሳምንት"; "ዞን"; "ዞን:"; "ነገር"; "ባዶ"; "አዎ/አይ"; "አዎ"; "አይ"; "ቁጥር"; "ጽሑፍ"; "ስራ"; "ተከታታይ"; "ዝርዝር"; "Stdout"; "ፋይል"; "ፕሮግራም"; "አፍታ"; "መመሪያ"; "የፋይል-መገኛ"]);
  ("ar", ["جديد"; "يساوي:"; "="; "≠"; "في:قم-بما-يلي:"; "رد:"; "الرد:و:"; "الرد:و:و:"; "الرد:و:و:و:"; "اكتب"; "لا-شيء؟"; "نفسي"; "فعل"; "فعله"; "لا:"; "نعم:"; "الرسالة:الحجج:"; "تحويل-إلى-نص"; "تحويل-إلى-رقم"; "نعم-أو-لا"; "الحالة:قم-بما-يلي:"; "تعلم:يعني:"; "مكتوبة"; "العودية"; "استراحة"; "استمر"; "آخر:"; "ليس"; "_و:"; "ولا:"; "أو:"; "إما:إما:"; "نسخ"; "+"; "أضف:"; "-"; "طرح-او-خصم:"; "×"; "اضرب-في:"; "÷"; "اقسم-على:"; ">"; "≥"; "<"; "≤"; "مودولو:"; "مقربة-للأسفل-تساوي"; "التقريب-لأعلى-هو"; "رقم-مدور"; "مطلق"; "الجذر-التربيعي"; "قوة:"; "عدد-فردي"; "عدد-زوجي"; "إيجابي؟"; "سلبي؟"; "الخام"; "رقم-عشوائي-بين:و:"; "تأهل:"; "المؤهل"; "sin"; "cos"; "tan"; "atan"; "log"; "الطول"; "من:الطول:"; "إزالة-المساحات-المحيطة"; "حرف:"; "تجد:"; "الاخير:"; "استبدل:بـ:"; "تحطيم:"; "الأحرف-الكبيرة"; "أحرف-صغيرة"; "عوض:"; "ألحق:"; "رقم-دولي"; "التجزئة:"; "الشخصيات"; "يحتوي-على:"; "قارن:"; "ككائن"; "يركض"; "تطبيق:"; "تطبيق:و:"; "تطبيق:و:و:"; "مجموعة:القيمة:"; "خطأ:"; "قبض-على:"; "إجراء"; "في-حين:"; "←"; "~"; ";"; "قبل:"; "خذ-العنصر-الأول"; "العد"; "انضم:"; "خذ-العنصر-الأخير"; "موضع:"; "في:"; "?"; "فرز:"; "ضع:في:"; "استبدال:الطول:مع:"; "خريطة:"; "كل:"; "الحد-الأدنى"; "أقصى"; "الاخير"; "آخر-ثانية"; "أول"; "تعبئة:مع:"; "بواسطة:"; "إدخالات"; "القيم"; "لديها:"; "كتابة:"; "قف"; "جديد:"; "مسار"; "اقرأ"; "موجود"; "بحجم"; "حذف"; "قائمة:"; "جدال:"; "الحجج"; "ضبط:"; "يطلب"; "قيمة:الضبط:"; "ذاكرة-نظيفة"; "ذاكرة:"; "طهارة:"; "أمر-النظام:"; "إدخال"; "دافق"; "ذاكرة"; "استعمال:"; "اطلبكلمةمرور"; "النهاية"; "انتظر:"; "زمن"; "يوم"; "يوم:"; "شهر"; "شهر:"; "عام"; "عام:"; "ساعة"; "ساعة:"; "دقيقة"; "دقيقة:"; "ثانيا"; "ثانيا:"; "أيام-الأسبوع"; "يوم-من-السنة"; "أسبوع"; "منطقة"; "منطقة:"; "موضوع"; "فارغة"; "منطقي"; "نعم"; "لا"; "رقم"; "نص"; "الشفرة"; "قائمة"; "خريطة"; "Stdout"; "ملف"; "برنامج"; "لحظة"; "تعليمات"; "مكانالملف"]);
  ("az", ["yeni"; "bərabərdir:"; "="; "≠"; "haqqında:etmək:"; "cavab-ver:"; "cavab-verin:və:"; "cavab-verin:və:və:"; "cavab-verin:və:və:və:"; "növü"; "boş?"; "özüm"; "etmək"; "etdi"; "yalan:"; "doğru:"; "mesaj:dəlillər:"; "mətn"; "nömrə"; "boolean"; "hal:etmək:"; "öyrənmək-deməkdir:__:"; "kod"; "rekursiv"; "fasilə"; "davam-edin"; "başqa:"; "deyil"; "və:"; "nə-də:"; "və-ya:"; "və-ya:__:"; "surəti"; "+"; "əlavə-edin:"; "-"; "çıxart:"; "×"; "çoxaltmaq:"; "÷"; "_bölmək:"; ">"; "≥"; "<"; "≤"; "modul:"; "aşağı"; "yüksək"; "yuvarlaq"; "mütləq"; "kvadrat-kök"; "güc:"; "tək?"; "cüt?"; "müsbət?"; "mənfi?"; "xam"; "arasında:və:"; "uyğun-olmaq:"; "ixtisas"; "sin"; "cos"; "tan"; "atan"; "log"; "uzunluğu"; "dən:uzunluq:"; "ətrafdakı-boşluqları-çıxarın"; "xarakter:"; "tapmaq:"; "son:"; "əvəz:ilə:"; "bölmək:"; "böyük-hərf"; "kiçik-hərf"; "ofset:"; "şəkilçi:"; "beynəlxalq-nömrə"; "hash:"; "simvol"; "ehtiva-edir:"; "müqayisə-et:"; "obyekt"; "qaçmaq"; "müraciət-edin:"; "müraciət-edin:və:"; "tətbiq-edin:və:və:"; "dəst:dəyər:"; "səhv:"; "tutmaq:"; "proseduru"; "isə:"; "←"; "~"; ";"; "prefiks:"; "birincisini-tut"; "saymaq"; "qoşulmaq:"; "son-obyekt-tut"; "mövqe:"; "at:"; "?"; "növ:"; "obyekt:yer:"; "əvəz:uzunluq:ilə:ilə"; "siyahı:"; "hər-biri:"; "minimum"; "maksimum"; "_son"; "ikinci-son"; "əvvəlcə"; "doldurmaq:ilə:"; "tərəfindən:"; "girişlər"; "dəyərlər"; "var:"; "yaz:"; "dayan"; "_yeni:"; "yol"; "oxumaq"; "mövcuddur"; "ölçüsü"; "silmək"; "seriya:"; "dəlil:"; "arqumentlər"; "qəbulu:"; "soruş"; "qəbulu:dəyər:"; "təmiz-yaddaş"; "yaddaş:"; "səliqə:"; "sistem-əmri:"; "giriş"; "qızarmaq"; "yaddaş"; "istifadə:"; "Şifrə-istəyin"; "son"; "gözləmək:"; "vaxt"; "gün"; "_gün:"; "ay"; "_ay:"; "il"; "_il:"; "saat"; "_saat:"; "dəqiqə"; "dəqiqə:"; "ikinci"; "ikinci:"; "iş-günü"; "ilin-günü"; "həftə"; "zona"; "zonası:"; "Obyekt"; "Boş"; "Məntiq"; "Doğru"; "Yalan"; "Nömrə"; "Mətn"; "Tapşırıq"; "Seriya"; "Siyahı"; "Stdout"; "Fayl"; "Proqram"; "An"; "təlimat"; "fayl-yeri"]);
  ("be", ["новы"; "роўна:"; "="; "≠"; "на:зрабіць:"; "адказаць:"; "адказаць:і:"; "адказаць:і:і:"; "адказаць:і:і:і:"; "тып"; "Ніл?"; "сябе"; "рабіць"; "зроблена"; "false:"; "праўда:"; "паведамленне:аргументы:"; "радок"; "лік"; "булева"; "выпадак:зрабіць:"; "вучыцца:азначае:"; "code"; "рэкурсіўны"; "разбіць"; "працягваць"; "яшчэ:"; "не"; "_і:"; "ні:"; "альбо:"; "альбо:альбо:"; "копія"; "+"; "дадаць:"; "-"; "адняць:"; "×"; "памножыць на:"; "÷"; "падзяліць на:"; ">"; "≥"; "<"; "≤"; "модуль:"; "падлогу"; "столь"; "круглы"; "абсалютны"; "квадратны корань"; "магутнасць:"; "дзіўна?"; "нават?"; "станоўчы?"; "адмоўны?"; "сырыя"; "паміж:і:"; "кваліфікацыя:"; "кваліфікацыя"; "sin"; "cos"; "tan"; "atan"; "log"; "даўжыня"; "ад:даўжыня:"; "выдаліце ​​навакольныя прасторы"; "характар:"; "знайсці:"; "апошні:"; "замяніць:на:"; "раскол:"; "вялікія літары"; "малыя літары"; "зрушэнне:"; "далучыць:"; "міжнародны нумар"; "хэш:"; "персанажаў"; "змяшчае:"; "Параўнайце:"; "як аб'ект"; "бегчы"; "прымяніць:"; "прымяніць:і:"; "прымяняюцца:і:і:"; "набор:значэнне:"; "памылка:"; "злавіць:"; "працэдура"; "час:"; "←"; "•"; ";"; "прэпендэнт:"; "зрух"; "лічыць"; "далучайцеся:"; "поп"; "пазіцыя:"; "па адрасе:"; "?"; "Сартаваць:"; "пакласці:у:"; "замяніць:даўжыня:на:"; "карта:"; "кожны:"; "мінімум"; "максімум"; "апошні"; "другая апошняя"; "першы"; "запоўніць:з:"; "па:"; "запісы"; "значэнні"; "мае:"; "пішыце:"; "прыпынак"; "новае:"; "шлях"; "чытаць"; "існуе"; "памер"; "выдаліць"; "спіс:"; "аргумент:"; "аргументы"; "налада:"; "пытацца"; "налада:значэнне:"; "чыстая памяць"; "памяць:"; "ахайнасць:"; "абалонка:"; "ўваход"; "прамываць"; "памяць"; "выкарыстанне:"; "Запытаць пароль"; "канец"; "пачакайце:"; "час"; "дзень"; "дзень:"; "месяц"; "месяц:"; "год"; "год:"; "гадзіну"; "гадзіна:"; "хвіліна"; "хвіліна:"; "другі"; "другая:"; "будні дзень"; "дзень у годзе"; "тыдзень"; "зона"; "зона:"; "Аб’ект"; "Ніль"; "Булева"; "Праўда"; "Ілжывая"; "Нумар"; "Радок"; "Кодэкс"; "Спіс"; "Карта"; "✎"; "Файл"; "Праграма"; "Момант"; "Інструкцыя"; "Размяшчэнне файла"]);
  ("bg", ["нов"; "се-равнява:"; "="; "≠"; "на:направите:"; "отговор:"; "отговори:и:"; "отговори:и:и:"; "отговори:и:и:и:"; "Тип"; "нищо?"; "себе-си"; "правя"; "Свършен"; "невярно:"; "вярно:"; "съобщение:аргументи:"; "текст"; "номер"; "логически"; "случай:направите:"; "научите:средство:"; "код"; "рекурсивен"; "почивка"; "продължи"; "друго:"; "не"; "и:"; "нито:"; "или:"; "или:или:"; "копие"; "+"; "добави:"; "-"; "изваждане:"; "×"; "умножете-по:"; "÷"; "разделят-от:"; ">"; "≥"; "<"; "≤"; "по-модул:"; "ниско"; "високо"; "кръгъл"; "абсолютен"; "корен-квадратен"; "мощност:"; "нечетно?"; "четно?"; "положителен?"; "отрицателна?"; "суров"; "между:и:"; "отговарят-на-изискванията:"; "квалификация"; "sin"; "cos"; "tan"; "atan"; "log"; "дължина"; "от:дължина:"; "отстраняване-на-околните-пространства"; "характер:"; "намирам:"; "продължи:"; "замени:с:"; "разделят:"; "Главна-буква"; "с-малки-букви"; "изместване:"; "наставка:"; "международен-номер"; "хеш:"; "знаци"; "съдържа:"; "сравни:"; "като-обект"; "тичам"; "Приложи:"; "прилага:и:"; "се-прилагат:а:и:"; "настроен:стойност:"; "грешка:"; "хване:"; "процедура"; "докато:"; "←"; "~"; ";"; "префикс:"; "вземете-първия"; "броя"; "присъединяване:"; "вземете-последния"; "позиция:"; "на-адрес:"; "?"; "вид:"; "слагам:на-адрес:"; "замени:дължина:с:"; "карта:"; "всеки:"; "минимум"; "максимален"; "последно"; "последна-секунда"; "първи"; "попълнете:с:"; "по:"; "вписвания"; "стойности"; "има:"; "напишете:"; "Спри-се"; "ново:"; "път"; "Прочети"; "съществува"; "размер"; "Изтрий"; "списък:"; "аргумент:"; "аргументи"; "настройка:"; "питам"; "настройка:стойност:"; "чиста-памет"; "памет:"; "спретнатост:"; "системна-команда:"; "вход"; "промиване"; "памет"; "използвате:"; "Поискайте-парола"; "край"; "изчакайте:"; "часовник"; "ден"; "ден:"; "месец"; "месец:"; "година"; "година:"; "час"; "час:"; "минута"; "минути:"; "втори"; "второ:"; "делничен"; "ден-от-годината"; "седмица"; "зона"; "зона:"; "обект"; "Нищо"; "Логически"; "Вярно"; "фалшив"; "Номер"; "Текст"; "Задача"; "списък"; "карта"; "Stdout"; "досие"; "програма"; "Момент"; "Инструкция"; "Местоположение-на-файла"]);
  ("bn", ["নতুন"; "সমান:"; "="; "≠"; "উপর:একটি-করুন:"; "সাড়া:"; "সাড়া:এবং:"; "সাড়া:এবং:এবং:"; "সাড়া:এবং:এবং:এবং:"; "আদর্শ"; "নীল?"; "নিজেকে"; "করা"; "সম্পন্ন"; "না:"; "হ্যাঁ:"; "বার্তা:আর্গুমেন্ট:"; "টেক্সটে-রূপান্তর-করুন"; "সংখ্যায়-রূপান্তর-করুন"; "_বুলিয়ান"; "মামলা:একটি-করুন:"; "জানুন:মাধ্যম:"; "যেমন-লেখা"; "পুনরাবৃত্তি"; "বিরতি"; "অবিরত"; "অন্য:"; "না"; "এবং:"; "কিংবা:"; "বা:"; "বা:বা:"; "কপি"; "+"; "যোগ-করুন:"; "-"; "বিয়োগ:"; "×"; "গুন-করা:"; "÷"; "দ্বারা-বিভক্ত-করা:"; ">"; "≥"; "<"; "≤"; "মডুলো:"; "নিচে-সুসম্পন্ন"; "রাউন্ড-আপ-করতে"; "বৃত্তাকার-হল"; "পরম"; "বর্গমূল"; "শক্তি:"; "অস্বাভাবিক?"; "এমন-কি?"; "ইতিবাচক?"; "নেতিবাচক?"; "কাঁচা"; "মধ্যবর্তী:এবং:"; "যোগ্যতা:"; "যোগ্যতা"; "sin"; "cos"; "tan"; "atan"; "log"; "লম্বা"; "থেকে:দৈর্ঘ্য:"; "পার্শ্ববর্তী-স্পেস-অপসারণ"; "অক্ষর:"; "অনুসন্ধান:"; "শেষ:"; "প্রতিস্থাপন:পাঠ্য:"; "বিভক্ত:"; "বড়-হাতের"; "ছোট-হাতের-অক্ষর-ব্যবহার"; "অফসেট:"; "সংযুক্ত-করুন:"; "আন্তর্জাতিক-সংখ্যা"; "হ্যাশ:"; "চরিত্র"; "রয়েছে:"; "তুলনা-করা:"; "একটি-বস্তু-হিসাবে"; "চালান"; "প্রযোজ্য:"; "আবেদন:এবং:"; "প্রযোজ্য:এবং:এবং:"; "সেট:মান:"; "ত্রুটি:"; "ধরা:"; "কার্যপ্রণালী"; "যখন:"; "←"; "~"; ";"; "শুরুতে-যোগ:"; "পরিবর্তন"; "গণনা"; "যোগ-দিন:"; "পপ"; "অবস্থান:"; "হয়:"; "?"; "সাজান:"; "করা:হয়:"; "প্রতিস্থাপন-করুন:দৈর্ঘ্য:সঙ্গে:"; "_মানচিত্র:"; "প্রতিটি:"; "সর্বনিম্ন"; "সর্বাধিক"; "গত"; "দ্বিতীয়-গত"; "প্রথম"; "সংখ্যার:পাঠ্য:"; "দ্বারা:"; "এন্ট্রি"; "মান"; "আছে:"; "লিখুন:"; "স্টপ"; "নতুন:"; "পথ"; "পড়া"; "বিদ্যমান"; "আয়তন"; "মুছে-ফেলা"; "_তালিকা:"; "যুক্তি:"; "যুক্তি"; "স্থাপন:"; "জিজ্ঞাসা-করা"; "সেটিং:মান:"; "পরিষ্কার-মেমরির"; "স্মৃতি:"; "পারিপাট্য:"; "শেল:"; "ইনপুট"; "ঘনিষ্ঠরূপে"; "স্মৃতি"; "ব্যবহার-করুন:"; "পাসওয়ার্ড-জিজ্ঞাসা-করুন"; "শেষ"; "অপেক্ষা-করুন:"; "সময়"; "দিন"; "দিন:"; "মাস"; "মাস:"; "বছর"; "বছর:"; "ঘন্টা"; "ঘন্টা:"; "মিনিট"; "মিনিট:"; "দ্বিতীয়"; "দ্বিতীয়:"; "সপ্তাহের-দিন"; "বছরের-দিন"; "সপ্তাহ"; "মণ্ডল"; "মণ্ডল:"; "উদ্দেশ্য"; "শূন্য"; "বুলিয়ান"; "সত্য"; "মিথ্যা"; "সংখ্যা"; "পাঠ্য"; "কোড"; "তালিকা"; "মানচিত্র"; "Stdout"; "ফাইল"; "কার্যক্রম"; "মুহূর্ত"; "নির্দেশ"; "ফাইল-অবস্থান"]);
  ("bs", ["novo"; "jednako:"; "="; "≠"; "on:do:"; "odgovori:"; "odgovoriti:i:"; "odgovoriti:i:i:"; "odgovoriti:i:i:i:"; "tip"; "nil?"; "sebe"; "učiniti"; "uradio"; "false:"; "istinito:"; "poruka:argumenti:"; "tekst"; "broj"; "boolean"; "slučaj:uradi:"; "naučiti:znači:"; "zapisano"; "rekurzivno"; "odmor"; "nastavi"; "ostalo:"; "ne"; "i:"; "niti:"; "ili:"; "ili:ili:"; "kopiju"; "+"; "dodati:"; "-"; "oduzeti:"; "×"; "pomnoži-sa:"; "÷"; "podijeli-sa:"; ">"; "≥"; "<"; "≤"; "modulo:"; "ponor-dole"; "ponor-naviše"; "ponor"; "apsolutni"; "kvadratni-korijen"; "snaga:"; "čudno?"; "čak?"; "pozitivno?"; "negativno?"; "sirovog"; "između:i:"; "kvalifikacij:"; "kvalifikacij"; "sin"; "cos"; "tan"; "atan"; "log"; "dužina"; "od:dužina:"; "uklonite-okolne-prostore"; "lik:"; "pronaći:"; "zadnji:"; "zamijeni:sa:"; "podijeliti:"; "velika-slova"; "mala-slova"; "kompenzacija:"; "dodaj:"; "međunarodni-broj"; "hash:"; "karaktera"; "sadrži:"; "uporedi:"; "objekt"; "trčati"; "primijeniti:"; "primijeniti:i:"; "primijeniti:i:i:"; "set:vrijednost:"; "greška:"; "uloviti:"; "postupak"; "dok:"; "←"; "~"; ";"; "pretplata:"; "uzmi-prvi"; "brojati"; "pridruži-se:"; "uzmi-zadnje"; "pozicija:"; "sa:"; "?"; "sortirati:"; "stavi:sa:"; "zamijeni:dužina:sa:"; "karta:"; "svaki:"; "minimum"; "maksimalno"; "zadnji"; "drugi-zadnji"; "prvo"; "napuniti:sa:"; "autor:"; "unose"; "vrijednosti"; "ima:"; "pisati:"; "stani"; "novo:"; "put"; "čitati"; "postoji"; "veličina"; "izbriši"; "lista:"; "argument:"; "argumenti"; "podešavanje:"; "pitaj"; "podešavanje:vrijednost:"; "čista-memorija"; "memorija:"; "urednost:"; "sistemska-komanda:"; "ulaz"; "ispiranje"; "memorija"; "koristiti:"; "pitati-lozinku"; "kraj"; "pričekajte:"; "vreme"; "dan"; "dan:"; "mesec"; "mjesec:"; "godine"; "godina:"; "sat"; "sat:"; "minutu"; "minuta:"; "sekunda"; "sekunda:"; "radnim-danom"; "dan-u-godini"; "sedmicu"; "zonu"; "zona:"; "Objekt"; "Nil"; "Boolean"; "Istinito"; "Lažno"; "Broj"; "Tekst"; "Zadatak"; "Lista"; "Mapa"; "Stdout"; "Datoteka"; "Program"; "Momenat"; "Uputstva"; "Lokacija-datoteke"]);
  ("ca", ["nou"; "és-igual:"; "="; "≠"; "en:fer:"; "respondre:"; "respondre:i:"; "respondre:i:i:"; "respondre:i:i:i:"; "tipus"; "nil?"; "jo-mateix"; "fer"; "fet"; "fals:"; "cert:"; "missatge:arguments:"; "text"; "núm"; "booleà"; "cas:fer:"; "aprendre:vol-dir:"; "escrit"; "recursiu"; "trencar"; "continua"; "més:"; "no"; "i:"; "ni:"; "o:"; "o-bé:_o:"; "còpia"; "+"; "afegir:"; "-"; "sostreure:"; "×"; "multiplica-per:"; "÷"; "dividir-per:"; ">"; "≥"; "<"; "≤"; "mòdul:"; "baix"; "alt"; "abisme"; "absolut"; "arrel-quadrada"; "potència:"; "senar?"; "parell?"; "positiu?"; "negatiu?"; "cru"; "entre:i:"; "qualificar:"; "qualificar"; "sin"; "cos"; "tan"; "atan"; "log"; "llargada"; "de:longitud:"; "elimina-els-espais-circumdants"; "personatge:"; "trobar:"; "últim:"; "substituir:amb:"; "dividir:"; "majúscules"; "minúscula"; "compensació:"; "annexar:"; "número-internacional"; "hash:"; "personatges"; "conté:"; "comparar:"; "objecte"; "correr"; "aplicar:"; "aplicar:_i:"; "aplicar:i:i:"; "conjunt:valor:"; "error:"; "atrapar:"; "procediment"; "mentre:"; "←"; "~"; ";"; "enviar-anticipadament:"; "torn"; "comptar"; "unir-se:"; "pop"; "posició:"; "a:"; "?"; "ordenar:"; "posar:a:"; "substituir:llarg:amb:"; "mapa:"; "cadascun:"; "mínim"; "màxim"; "últim"; "segon-últim"; "primer"; "omple:amb:"; "per:"; "entrades"; "valors"; "té:"; "escriu:"; "atura"; "nou:"; "camí"; "llegir"; "existeix"; "mida"; "suprimir"; "llista:"; "argument:"; "arguments"; "configuració:"; "pregunta"; "configuració:valor:"; "memòria-neta"; "memòria:"; "ordre:"; "closca:"; "entrada"; "rubor"; "memòria"; "utilitzar:"; "demana-contrasenya"; "final"; "esperar:"; "temps"; "dia"; "dia:"; "mes"; "mes:"; "curs"; "curs:"; "hores"; "hores:"; "minut"; "minut:"; "segon"; "segon:"; "dia-de-la-setmana"; "dia-de-l']any"; "setmana"; "zona"; "zona:"; "Objecte"; "Nil"; "Booleà"; "És-cert"; "Fals"; "Número"; "Text"; "Tasca"; "Llista"; "Mapa"; "Stdout"; "Dossier"; "Programa"; "Moment"; "Instrucció"; "Ubicació-del-fitxer"]);
  ("ceb", ["bag-o-nga"; "managsama__:"; "="; "≠"; "sa:buhata:"; "tubag:"; "tubag:ug:"; "tubag:ug:ug:"; "tubag:ug:ug:ug:"; "matang"; "wala?"; "sa-akong-kaugalingon"; "buhata"; "nahimo"; "bakak:"; "tinuod:"; "mensahe:argumento:"; "pisi"; "gidaghanon"; "boolean"; "kaso:buhata:"; "pagkat-on:nagpasabut:"; "code"; "recursive"; "pagguba"; "mopadayon"; "lain:"; "dili"; "ug:"; "ni:"; "_o:"; "bisan:_o:"; "kopya"; "+"; "pagdugang:"; "-"; "ibaliwala:"; "×"; "pagdaghan-pinaagi-sa:"; "÷"; "bahinon-sa:"; ">"; "≥"; "<"; "≤"; "modulo:"; "salog"; "kisame"; "pusod"; "hingpit"; "square-gamut"; "gahum:"; "katingad-an?"; "bisan?"; "positibo?"; "negatibo?"; "hilaw"; "sa-taliwala:ug:"; "kwalipikado:"; "kwalipikasyon"; "sin"; "cos"; "tan"; "atan"; "log"; "gitas-on"; "gikan-sa:gitas-on:"; "tangtangon-ang-palibot-nga-mga-wanang"; "kinaiya:"; "pangitaa:"; "katapusan:"; "pulihan:sa:"; "gibahin:"; "pangpang"; "maleta"; "offset:"; "sumpay:"; "internasyonal-nga-numero"; "hash:"; "mga-karakter"; "naglangkob:"; "itandi:"; "tumong"; "run"; "ipadapat:"; "ipadapat:ug:"; "ipadapat:ug:ug:"; "gipahimutang:kantidad:"; "sayup:"; "dakpon:"; "pamaagi"; "samtang:"; "←"; "~"; ";"; "pag-andam:"; "pagbalhin"; "ihap"; "pag-apil:"; "pop"; "posisyon:"; "sa:"; "?"; "lahi:"; "gibutang:sa:"; "pulihan:gitas-on:sa:"; "mapa:"; "matag-usa:"; "labing-gamay"; "labing-kataas"; "ulahi"; "ikaduha-nga-naulahi"; "una"; "pun-on:sa:"; "pinaagi-sa:"; "mga-sinugdanan"; "mga-mithi"; "adunay:"; "pagsulat:"; "hunong"; "_bag-o-nga:"; "agianan"; "pagbasa"; "anaa"; "gidak-on"; "pagtangtang"; "lista:"; "argumento:"; "mga-argumento"; "setting:"; "pangutana"; "setting:bili:"; "limpyo-nga-panumduman"; "panumduman:"; "maayong-balita:"; "kabhang:"; "input"; "bulag"; "panumduman"; "paggamit:"; "pangutana-password"; "katapusan"; "maghulat:"; "panahon"; "adlaw"; "_adlaw:"; "bulan"; "_bulan:"; "tuig"; "_tuig:"; "oras"; "takna:"; "minuto"; "minuto__:"; "ikaduha"; "ikaduha:"; "adlaw-sa-semana"; "adlaw-sa-tuig"; "semana"; "zone"; "_zone:"; "Tumong"; "Nil"; "Boolean"; "Tinuod"; "Bakak"; "Numero"; "Ang-String"; "Code"; "Paglista"; "Mapa"; "Stdout"; "Pag-file"; "Programa"; "Hinungdan"; "Panudlo"; "Lokasyon-sa-file"]);
  ("co", ["novu"; "uguali:"; "="; "≠"; "nantu-à:fà:"; "risponde:"; "risponde:è:"; "risponde:è:è:"; "risponde:è:è:è:"; "tipu"; "nil?"; "mè-stessu"; "fà"; "fattu"; "falsu:"; "vera:"; "messagiu:argumenti:"; "catena"; "numeru"; "booleanu"; "casu:fà:"; "amparà:significa:"; "code"; "ricursivu"; "rompe"; "cuntinuà"; "altrimenti:"; "micca"; "è:"; "nè:"; "o:"; "o:o:"; "copia"; "+"; "aghjustà:"; "-"; "suttendu:"; "×"; "multiplicà-per:"; "÷"; "dividite-per:"; ">"; "≥"; "<"; "≤"; "modulu:"; "bassa-arrotondata"; "altu-arrotondatu"; "arrotondatu"; "assuluta"; "radice-quadrata"; "putenza:"; "stranu?"; "pari?"; "pusitivu?"; "negativu?"; "cruda"; "trà:è:"; "qualificà:"; "qualificazione"; "sin"; "cos"; "tan"; "atan"; "log"; "lunghezza"; "da:lunghezza:"; "caccià-i-spazii-circundanti"; "caratteru:"; "truvà:"; "ultimu:"; "rimpiazzà:cù:"; "split:"; "maiuscola"; "minuscola"; "offset:"; "appendicà:"; "numeru-internaziunale"; "hash:"; "caratteri"; "cuntene:"; "paragunà:"; "ughjettu"; "curri"; "applicà:"; "applicà:_è:"; "applicà:è:è:"; "setà:valore:"; "errore:"; "catturà:"; "prucedura"; "mentre:"; "←"; "~"; ";"; "prepudà:"; "cambia"; "cuntà"; "unisce:"; "pop"; "pusizione:"; "à:"; "?"; "sorta:"; "mette:à:"; "rimpiazzà:lunghezza:cù:"; "lista:"; "ognunu:"; "minimu"; "massimu"; "ultimu"; "siconda-ultimu"; "primu"; "compie:cù:"; "di:"; "entrate"; "valori"; "hà:"; "scrive:"; "stop"; "novu:"; "caminu"; "leghje"; "esiste"; "taglia"; "eliminà"; "serie:"; "argumentu:"; "argumenti"; "impostu:"; "dumandà"; "paràmetru:valore:"; "memoria-pulita"; "memoria:"; "pulizia:"; "cumandamentu-di-u-sistema:"; "input"; "scorri"; "memoria"; "aduprà:"; "dumandà-password"; "finisci"; "aspittà:"; "tempu"; "ghjornu"; "ghjornu:"; "mese"; "mese:"; "annu"; "annu:"; "ora"; "ora:"; "minutu"; "minutu:"; "sicondu"; "sicondu:"; "settimana-di-settimana"; "ghjornu-di-l']annu"; "settimana"; "zona"; "zona:"; "Ughjettu"; "Nil"; "Booleanu"; "Hè-vera"; "False"; "Numero"; "Testua"; "Codice"; "Serie"; "Lista"; "Stdout"; "File"; "Prugramma"; "Mumentu"; "Istruzzioni"; "Situazione-di-u-fugliale"]);
  ("cs", ["nový"; "rovná-se:"; "="; "≠"; "na:udělat:"; "odpovědět:"; "odpovědět:a-také:"; "odpovědět:a-také:a-také:"; "odpovědět:a-také:a-také:a-také:"; "typ"; "Nic?"; "sám"; "udělat"; "hotovo"; "nepravda:"; "pravda:"; "zpráva:parametry:"; "řetězec"; "číslo"; "boolean"; "v-případě:udělat:"; "naučit:znamená:"; "kód"; "rekurzivní"; "přestat"; "pokračovat"; "jinak:"; "nikoliv"; "a-zároveň:"; "ani:"; "nebo:"; "buď:nebo:"; "kopie"; "+"; "přičíst:"; "-"; "odečíst:"; "⋅"; "vynásobit:"; "∶"; "vydělit:"; ">"; "≥"; "<"; "≤"; "modulo:"; "dolní-celá-část"; "horní-celá-část"; "zaokrouhlit"; "absolutní"; "odmocnina"; "umocnit-na:"; "lichý?"; "sudý?"; "kladný?"; "záporný?"; "surový"; "mezi:a:"; "jednotka:"; "jednotka"; "sin"; "cos"; "tan"; "atan"; "log"; "délka"; "od:délka:"; "odstranit-okolní-mezery"; "znak:"; "hledat:"; "poslední:"; "nahradit:za:"; "rozdělit:"; "velkými-písmeny"; "malými-písmeny"; "přeskočit:"; "připojit:"; "neformátované-číslo"; "heš:"; "znaky"; "obsahuje:"; "porovnat:"; "objekt"; "start"; "aplikovat:"; "aplikovat:a-také:"; "aplikovat:a-také:a-také:"; "nastavit:na:"; "chyba:"; "chytit:"; "postup"; "zatímco:"; "←"; "~"; ";"; "předřadit:"; "vysunout-začátek"; "počet"; "spojit:"; "vysunout-konec"; "pozice:"; "na:"; "?"; "seřadit:"; "umístit:na:"; "nahradit:délka:za:"; "všem:"; "každý:"; "minimum"; "maximum"; "poslední"; "druhý-od-konce"; "první"; "naplnit:čím:"; "podle:"; "záznamy"; "hodnoty"; "má:"; "psát:"; "stop"; "nový:"; "cesta"; "číst"; "existuje"; "velikost"; "smazat"; "seznam:"; "parametr:"; "parametrů"; "nastavení:"; "zeptat-se"; "nastavení:hodnota:"; "vymazat-paměť"; "paměť:"; "pořádnost:"; "rozhraní:"; "vstup"; "vyprázdnit"; "paměť"; "použít:"; "zeptat-se-na-heslo"; "konec"; "počkat:"; "čas"; "den"; "den:"; "měsíc"; "měsíc:"; "rok"; "rok:"; "hodina"; "hodina:"; "minuta"; "minuta:"; "vteřina"; "vteřina:"; "den-v-týdnu"; "den-v-roce"; "týden"; "pásmo"; "pásmo:"; "Objekt"; "Nic"; "Boolean"; "Pravda"; "Nepravda"; "Číslo"; "Řetězec"; "Kód"; "Seznam"; "Mapa"; "Stdout"; "Soubor"; "Program"; "Okamžik"; "Instrukce"; "Umístění-souboru"]);
  ("cy", ["newydd"; "hafal:"; "="; "≠"; "ar:gwneud:"; "ymateb:"; "ymateb:a:"; "ymateb:a:a:"; "ymateb:a:a:a:"; "math"; "dim?"; "fy-hun"; "wneud"; "wedi']i-wneud"; "ffug:"; "gwir:"; "neges:dadleuon:"; "testun"; "rhif"; "boolean"; "achos:gwnewch:"; "dysgu:yn-golygu:"; "code"; "recursive"; "egwyl"; "parhau"; "arall:"; "ddim"; "a:"; "na:"; "neu:"; "naill-ai:neu:"; "copi"; "+"; "ychwanegu:"; "-"; "tynnu:"; "×"; "lluosi-â:"; "÷"; "rhannwch-â:"; ">"; "≥"; "<"; "≤"; "modulo:"; "rownd-i-lawr"; "rownd-i-fyny"; "rownd"; "absoliwt"; "ail-isradd"; "pŵer:"; "odrhif?"; "eilrif?"; "cadarnhaol?"; "negyddol?"; "amrwd"; "rhwng:a:"; "yn-gymwys:"; "cymhwyster"; "sin"; "cos"; "tan"; "atan"; "log"; "hyd"; "o:hyd:"; "symud-y-lleoedd-cyfagos"; "cymeriad:"; "darganfyddwch:"; "olaf:"; "disodli:gyda:"; "rhaniad:"; "uppercase"; "llythrennau-bach"; "gwrthbwyso:"; "atodiad:"; "rhif-rhyngwladol"; "hash:"; "cymeriadau"; "yn-cynnwys:"; "cymharwch:"; "gwrthrych"; "rhedeg"; "gwnewch-gais:"; "yn-berthnasol:_a:"; "yn-gymwys:a:a:"; "set:gwerth:"; "gwall:"; "dal:"; "gweithdrefn"; "tra:"; "←"; "~"; ";"; "prepend:"; "shifft"; "cyfrif"; "ymuno:"; "pop"; "safle:"; "yn:"; "?"; "didoli:"; "rhoi:yn:"; "disodli:hyd:gyda:"; "map:"; "yr-un:"; "lleiafswm"; "mwyafswm"; "olaf"; "ail-olaf"; "yn-gyntaf"; "llenwi:gyda:"; "gan:"; "cofnodion"; "gwerthoedd"; "wedi:"; "ysgrifennu:"; "stopio"; "_newydd:"; "llwybr"; "darllen"; "yn-bodoli"; "maint"; "dileu"; "rhestr:"; "dadl:"; "dadleuon"; "lleoliad:"; "gofynnwch"; "gosodiad:gwerth:"; "cof-glân"; "cof:"; "taclusrwydd:"; "gorchymyn-system:"; "mewnbwn"; "fflysio"; "cof"; "defnyddio:"; "gofynnwch-gyfrinair"; "diwedd"; "aros:"; "amser"; "dydd"; "dydd:"; "mis"; "mis:"; "flwyddyn"; "blwyddyn:"; "awr"; "awr:"; "munud"; "munud:"; "yn-ail"; "ail:"; "yn-ystod-yr-wythnos"; "diwrnod-o']r-flwyddyn"; "wythnos"; "parth"; "parth:"; "Gwrthrych"; "Dim"; "Boole"; "Gwir"; "Anghywir"; "Rhif"; "Testun"; "Côd"; "Rhestr"; "Map"; "Stdout"; "Ffeil"; "Rhaglen"; "Munud"; "Cyfarwyddiadau"; "Lle"]);
  ("da", ["ny"; "lige-med:"; "="; "≠"; "på:gøre:"; "svare:"; "reagere:og:"; "reagere:og:og:"; "reagere:og:og:og:"; "type"; "tømme?"; "mig-selv"; "gøre"; "færdig"; "falsk:"; "rigtigt:"; "besked:argumenter:"; "tekst"; "nummer"; "boolean"; "tilfælde:gøre:"; "lære:midler:"; "code"; "rekursiv"; "holde-op"; "blive-ved"; "andet:"; "ikke"; "og:"; "heller-ikke:"; "eller:"; "enten:eller:"; "kopi"; "+"; "tilføje:"; "-"; "trække-fra:"; "×"; "multipliceres-med:"; "÷"; "dividere-med:"; ">"; "≥"; "<"; "≤"; "modulo:"; "rundet-ned"; "rundet-op"; "rundet"; "absolutte"; "kvadrat-rod"; "strøm:"; "ulige?"; "lige?"; "positiv?"; "negativ?"; "rå"; "mellem:og:"; "kvalificering:"; "kvalificering"; "sin"; "cos"; "tan"; "atan"; "log"; "længde"; "fra:længde:"; "fjerne-omgivende-rum"; "karakter:"; "find:"; "sidst:"; "erstat:med:"; "dele:"; "store-bogstaver"; "små-bogstaver"; "forskydning:"; "tilføj:"; "internationale-nummer"; "hash:"; "tegn"; "indeholder:"; "sammenligne:"; "objekt"; "løb"; "ansøge:"; "anvendelse:og:"; "anvendelse:og:og:"; "sæt:værdi:"; "fejl:"; "fangst:"; "procedure"; "mens:"; "←"; "~"; ";"; "prepend:"; "tag-den-første"; "tælle"; "tilslutte:"; "tag-sidst"; "position:"; "på:"; "?"; "sortere:"; "sætte:på:"; "erstatte:længde:med:"; "liste:"; "hver:"; "minimum"; "maksimum"; "sidst"; "næstsidste"; "først"; "fyldt:med:"; "ved:"; "poster"; "værdier"; "har:"; "skrive:"; "stop"; "ny:"; "sti"; "læs"; "eksisterer"; "størrelse"; "slette"; "række:"; "argument:"; "argumenter"; "indstilling:"; "spørge"; "indstilling:værdi:"; "ren-hukommelse"; "hukommelse:"; "ordenssans:"; "systemkommando:"; "input"; "flush"; "hukommelse"; "brug:"; "spørg-adgangskode"; "ende"; "vente:"; "tid"; "dag"; "dag:"; "måned"; "måned:"; "år"; "år:"; "time"; "time:"; "minut"; "minut:"; "anden"; "anden:"; "ugedag"; "dag-i-året"; "uge"; "zone"; "zone:"; "Objekt"; "Tømme"; "Boolean"; "Rigtigt"; "Falsk"; "Nummer"; "Tekst"; "Opgave"; "Række"; "Liste"; "Stdout"; "Fil"; "Program"; "Øjeblik"; "Instruktion"; "Filplacering"]);
  ("de", ["neu"; "gleich:"; "="; "≠"; "bei:tun:"; "antworten:"; "antworten:und:"; "antworten:und:und:"; "antworten:und:und:und:"; "art"; "nichts?"; "mich-selber"; "tun"; "erledigt"; "ja:"; "nein:"; "nachricht:argumente:"; "zeichenfolge"; "zahl"; "ja-oder-nein-"; "im-Fall:tun:"; "lernen:bedeutet:"; "code"; "rekursiv"; "brechen"; "fortsetzen"; "sonst:"; "nicht"; "und:"; "noch:"; "oder:"; "entweder:oder:"; "kopieren"; "+"; "hinzufügen:"; "-"; "subtrahieren:"; "×"; "mal:"; "÷"; "teilen-durch:"; ">"; "≥"; "<"; "≤"; "modulo:"; "abgerundet"; "aufgerundet"; "gerundet"; "absolut"; "quadratwurzel"; "potenzierung:"; "ungerade?"; "gerade?"; "positiv?"; "negativ?"; "roh"; "zwischen:und:"; "Qualifikation:"; "Qualifikation"; "sin"; "cos"; "tan"; "atan"; "log"; "länge"; "von:länge:"; "umliegende-räume-entfernen"; "Buchstabe:"; "finden:"; "zuletzt:"; "ersetzen:mit:"; "teilen:"; "großbuchstaben"; "kleinbuchstaben"; "überspringen:"; "anhängen:"; "internationale-nummer"; "Schlüssel:"; "zeichen"; "enthält:"; "vergleichen:"; "objekt"; "start"; "anwenden:"; "gelten:und:"; "gelten:und:und:"; "set:value:"; "Fehler:"; "Fehlerbehandlung:"; "routine"; "solange:"; "←"; "~"; ";"; "voranstellen:"; "verschiebung"; "anzahl"; "verschmelzen:"; "nimm-letzten"; "position:"; "beim:"; "?"; "sortieren:"; "setzen:auf:"; "ersetzen:länge:durch:"; "liste:"; "jeder:"; "minimum"; "maximal"; "zuletzt"; "vorletzte"; "zuerst"; "füllen:mit:"; "durch:"; "einträge"; "werte"; "hat:"; "schreiben:"; "halt"; "neu:"; "pfad"; "lesen"; "existiert"; "größe"; "löschen"; "Serie:"; "argument:"; "argumente"; "Einstellung:"; "fragen"; "Einstellung:wird:"; "Aufräumen"; "Speichergrenze:"; "Speicherverwaltung:"; "Systembefehl:"; "Eingangskanal"; "spülen"; "Speichergrenze"; "verwenden:"; "Passwort-fragen"; "ende"; "warten:"; "zeit"; "tag"; "tag:"; "monat"; "monat:"; "jahr"; "jahr:"; "stunde"; "stunde:"; "minute"; "minute:"; "zweite"; "zweite:"; "wochentag"; "tag-des-jahres"; "woche"; "zone"; "zone:"; "Objekt"; "Nichts"; "Ja-oder-Nein"; "Ja"; "Nein"; "Zahl"; "String"; "Aufgabe"; "Serie"; "Liste"; "Stdout"; "Datei"; "Programm"; "Moment"; "Anweisung"; "Speicherort"]);
  ("el", ["νέος"; "ισούται-με:"; "="; "≠"; "στο:έως:"; "απαντώ:"; "απαντήστε:και:"; "απαντήστε:και:και:"; "απαντήστε:και:και:και:"; "τύπος"; "Μηδέν?"; "εγώ-ο-ίδιος"; "κάνω"; "Ολοκληρώθηκε"; "ψευδής:"; "αληθής:"; "μήνυμα:επιχειρήματα:"; "κείμενο"; "αριθμός"; "boolean"; "περίπτωση:κάντε:"; "μάθει:σημαίνει:"; "κώδικας"; "αναδρομική"; "Διακοπή"; "να-συνεχίσει"; "αλλού:"; "δεν"; "και:"; "ούτε:"; "ή:"; "ειτε:ή:"; "αντίγραφο"; "+"; "Προσθήκη:"; "-"; "αφαιρώ:"; "×"; "πολλαπλασιάστε-με:"; "÷"; "διαιρέστε-με:"; ">"; "≥"; "<"; "≤"; "modulo:"; "στρογγυλεμένο-προς-τα-κάτω"; "στρογγυλεμένο-προς-τα-πάνω"; "στρογγυλεμένο"; "απόλυτος"; "τετραγωνική-ρίζα"; "εξουσία:"; "αριθμός?"; "ακόμη-και?"; "θετικός?"; "αρνητικός?"; "ακατέργαστος"; "ανάμεσα:και:"; "γίνομαι-αρμόδιος:"; "προσόν"; "sin"; "cos"; "tan"; "atan"; "log"; "μήκος"; "από:μήκος:"; "αφαιρέστε-τους-περιβάλλοντες-χώρους"; "χαρακτήρας:"; "εύρημα:"; "τελευταίος:"; "αντικατέστησε-με:__:"; "διαίρεση:"; "κεφαλαία"; "πεζά"; "αντισταθμίζεται:"; "προσαρτώ:"; "διεθνή-αριθμό"; "χασίσι:"; "χαρακτήρες"; "περιέχει:"; "συγκρίνω:"; "ως-αντικείμενο"; "τρέξιμο"; "ισχύουν:"; "εφαρμόστε:και:"; "εφαρμόστε:και:και:"; "σύνολο:τιμή:"; "λάθος:"; "σύλληψη:"; "διαδικασία"; "ενώ:"; "←"; "~"; ";"; "πρόβλεψη:"; "βάρδια"; "μετρώ"; "Συμμετοχή:"; "κρότος"; "θέση:"; "στο:"; "?"; "είδος:"; "βάλτε:στη-διεύθυνση:"; "αντικαταστήστε:μήκος:με:"; "λίστα:"; "καθε:"; "ελάχιστο"; "ανώτατο-όριο"; "τελευταίος"; "προτελευταία"; "πρώτα"; "αριθμός-των:-γέμιση:"; "με:"; "καταχωρήσεις"; "αξίες"; "έχει:"; "γράφω:"; "να-σταματήσει"; "νέος:"; "μονοπάτι"; "ανάγνωση"; "υπάρχει"; "Μέγεθος"; "διαγράφω"; "σειρά:"; "διαφωνία:"; "επιχειρήματα"; "σύνθεση:"; "παρακαλώ"; "ρύθμιση:τιμή:"; "καθαρή-μνήμη"; "μνήμη:"; "νοικοκυροσύνη:"; "εντολή-συστήματος:"; "εισαγωγή"; "ξεπλύνετε"; "μνήμη"; "χρήση:"; "ζητα-κωδικο"; "τέλος"; "Περίμενε:"; "χρόνος"; "ημέρα"; "ημέρα:"; "μήνας"; "μήνας:"; "έτος"; "έτος:"; "ώρα"; "ώρα:"; "λεπτό"; "λεπτό:"; "δεύτερος"; "δεύτερος:"; "καθημερινή"; "ημέρα-του-έτους"; "εβδομάδα"; "ζώνη"; "ζώνη:"; "Αντικείμενο"; "Μηδέν"; "Boolean"; "Αληθής"; "Ψευδής"; "Αριθμός"; "Kείμενο"; "Κώδικας"; "Σειρά"; "Λίστα"; "Stdout"; "Αρχείο"; "Πρόγραμμα"; "Στιγμή"; "Εντολή"; "Θέση-αρχείου"]);
  ("en", ["new"; "equals:"; "="; "≠"; "on:do:"; "respond:"; "respond:and:"; "respond:and:and:"; "respond:and:and:and:"; "type"; "None?"; "myself"; "do"; "done"; "false:"; "true:"; "message:arguments:"; "text"; "number"; "bool"; "case:do:"; "learn:means:"; "code"; "recursive"; "break"; "continue"; "else:"; "not"; "and:"; "nor:"; "or:"; "either:or:"; "copy"; "+"; "add:"; "-"; "subtract:"; "×"; "multiply-by:"; "÷"; "divide-by:"; ">"; "≥"; "<"; "≤"; "modulo:"; "floor"; "ceil"; "round"; "absolute"; "square-root"; "power:"; "odd?"; "even?"; "positive?"; "negative?"; "plain"; "between:and:"; "qualify:"; "qualifier"; "sin"; "cos"; "tan"; "atan"; "log"; "length"; "from:length:"; "trim"; "character:"; "find:"; "last:"; "replace:with:"; "split:"; "capitals"; "lowercase"; "offset:"; "append:"; "inter-number"; "hash:"; "characters"; "contains:"; "compare:"; "object"; "start"; "apply:"; "apply:and:"; "apply:and:and:"; "set:value:"; "error:"; "except:"; "procedure"; "while:"; "←"; "~"; ";"; "prepend:"; "shift"; "count"; "combine:"; "pop"; "position:"; "at:"; "?"; "sort:"; "put:at:"; "replace:length:with:"; "list:"; "each:"; "minimum"; "maximum"; "last"; "penultimate"; "first"; "fill:with:"; "by:"; "entries"; "values"; "has:"; "write:"; "stop"; "new:"; "path"; "read"; "exists"; "size"; "delete"; "sequence:"; "argument:"; "arguments"; "setting:"; "ask"; "setting:value:"; "clean-up"; "memory:"; "memory-management:"; "os:"; "input"; "flush"; "memory"; "use:"; "ask-password"; "end"; "wait:"; "time"; "day"; "day:"; "month"; "month:"; "year"; "year:"; "hour"; "hour:"; "minute"; "minute:"; "second"; "second:"; "weekday"; "day-of-the-year"; "week"; "zone"; "zone:"; "Object"; "None"; "Boolean"; "True"; "False"; "Number"; "Text"; "Task"; "Sequence"; "List"; "Out"; "File"; "Program"; "Moment"; "Command"; "Path"]);
  ("es", ["nuevo"; "es-igual-a:"; "="; "≠"; "en:hacer:"; "responder:"; "responder:y:"; "responder:y:y:"; "responder:y:y:y:"; "tipo"; "¿nulo?"; "yo-mismo"; "hacer"; "hecho"; "falso:"; "verdadero:"; "mensaje:argumentos:"; "texto"; "número"; "booleano"; "en-caso-de:hacer:"; "aprender:significa:"; "código"; "recursivo"; "salir"; "continuar"; "otro:"; "no"; "y:"; "ni:"; "o:"; "entonces:caso-contrario:"; "copiar"; "+"; "añadir:"; "-"; "restar:"; "×"; "multiplicar-por:"; "÷"; "dividir-por:"; ">"; "≥"; "<"; "≤"; "módulo:"; "redondear-a-la-baja"; "redondear-al-alza"; "redondear"; "absoluto"; "raíz-cuadrada"; "elevar-a:"; "¿impar?"; "¿par?"; "¿positivo?"; "¿negativo?"; "bruto"; "entre:y:"; "calificar:"; "calificación"; "sin"; "cos"; "tan"; "atan"; "log"; "longitud"; "desde:longitud:"; "recortar"; "caracter:"; "encontrar:"; "último:"; "reemplazar:con:"; "dividir:"; "mayúscula"; "minúsculas"; "compensar:"; "adjuntar:"; "numero-internacional"; "identificador:"; "caracteres"; "contiene:"; "comparar:"; "objeto"; "ejecutar"; "aplicar:"; "aplicar:y:"; "aplicar:y:y:"; "valor:asignar:"; "error:"; "capturar:"; "procedimiento"; "mientras:"; "←"; "~"; ";"; "anteponer:"; "toma-el-primero"; "contar"; "unirse:"; "toma-el-último"; "posición:"; "a:"; "?"; "ordenar:"; "poner:en:"; "reemplazar:longitud:con:"; "lista:"; "cada:"; "mínimo"; "máximo"; "último"; "penúltimo"; "primero"; "llenar:con:"; "por:"; "entradas"; "valores"; "tiene:"; "escribir:"; "detener"; "nuevo:"; "ruta"; "leer"; "existe"; "tamaño"; "eliminar"; "serie:"; "argumento:"; "argumentos"; "configurar:"; "pedir"; "establecer:valor:"; "limpiar-memoria"; "memoria:"; "orden:"; "Comando-de-Sistema:"; "entrada"; "limpiar"; "memoria"; "utilizar:"; "pedir-contraseña"; "finalizar"; "esperar:"; "tiempo"; "día"; "día:"; "mes"; "mes:"; "año"; "año:"; "hora"; "hora:"; "minuto"; "minuto:"; "segundo"; "segundo:"; "día-semanal"; "dia-del-año"; "semana"; "zona"; "zona:"; "Objeto"; "Nulo"; "Booleano"; "Verdadero"; "Falso"; "Número"; "Texto"; "Tarea"; "Serie"; "Lista"; "Salida"; "Archivo"; "Programa"; "Momento"; "Instrucción"; "Ubicación-del-archivo"]);
  ("et", ["uus"; "võrdub:"; "="; "≠"; "sisse:tee:"; "vasta:"; "vasta:ja:"; "vasta:ja:ja:"; "vasta:ja:ja:ja:"; "tüüp"; "tühi?"; "mina"; "teha"; "tehtud"; "vale:"; "tõsi:"; "teade:argumendid:"; "tekst"; "number"; "loogiline"; "juhtum:tee:"; "õppida:tähendab:"; "praegune-ülesanne"; "korduv"; "peatus"; "jätka"; "muu:"; "mitte"; "ja:"; "ega:"; "või:"; "kas:või:"; "koopia"; "+"; "lisama:"; "-"; "lahutama:"; "×"; "korrutada:"; "÷"; "jagada:"; ">"; "≥"; "<"; "≤"; "modulo:"; "ümardatud-allapoole"; "ümardatud-üles"; "ümmargune"; "absoluutne"; "ruutjuur"; "võimsus:"; "paaritu?"; "paaris?"; "positiivne?"; "negatiivne?"; "toores"; "vahel:ja:"; "iseloomulik:"; "iseloomulik"; "sin"; "cos"; "tan"; "atan"; "log"; "pikkus"; "alates:pikkus:"; "eemaldage-ümbritsevad-ruumid"; "tegelane:"; "leida:"; "viimane:"; "vana:uus:"; "poolitatud:"; "suurtäht"; "väiketähed"; "nihe:"; "lisa:"; "rahvusvaheline-number"; "räsi:"; "tegelased"; "sisaldab:"; "võrdlema:"; "objekt"; "jooksma"; "kohaldada:"; "kohaldada:ja:"; "kohaldada:ja:ja:"; "komplekt:väärtus:"; "viga:"; "vigade-käsitlemine:"; "protseduur"; "samas:"; "←"; "~"; ";"; "ette-maksma:"; "võta-esimene-objekt"; "loendama"; "liitu:"; "võta-viimane-objekt"; "positsioon:"; "aadressil:"; "?"; "sorteeri:"; "panna:juures:"; "asendada:pikkus:koos:"; "nimekiri:"; "iga:"; "miinimum"; "maksimaalne"; "viimane"; "teine-​​viimane"; "esimene"; "täitma:täidis:"; "kõrval:"; "sissekanded"; "väärtused"; "omab:"; "kirjuta:"; "lause"; "uus:"; "tee"; "loe"; "eksisteerib"; "suurus"; "kustuta"; "seeria:"; "argument:"; "argumendid"; "seade:"; "küsige"; "seade:väärtus:"; "puhas-mälu"; "mälu:"; "puhtus:"; "süsteemi-käsk:"; "sisend"; "loputada"; "mälu"; "kasuta:"; "küsi-parooli"; "lõpp"; "oota:"; "aeg"; "päev"; "päev:"; "kuu"; "kuu:"; "aastal"; "aasta:"; "tund"; "tund:"; "minut"; "minut:"; "teine"; "teine:"; "nädalapäev"; "aasta-päev"; "nädal"; "tsooni"; "tsoon:"; "Objekt"; "Tühi"; "Otsus"; "Tõsi"; "Vale"; "Arv"; "Tekst"; "Ülesanne"; "Seeria"; "Nimekiri"; "Stdout"; "Toimik"; "Programm"; "Hetk"; "Juhised"; "Faili-asukoht"]);
  ("eu", ["berriaren"; "berdinen:"; "="; "≠"; "on:egin:"; "erantzun:"; "erantzuteko:eta:"; "erantzuteko:eta:eta:"; "erantzuteko:eta:eta:eta:"; "mota"; "ez?"; "neuk"; "egin"; "prest"; "faltsua:"; "egia:"; "mezua:argumentuak:"; "testua"; "zenbakia"; "erabakia"; "kasu:egin:"; "ikasten:bideak:"; "deskribatu"; "errekurtsiboa"; "gelditu"; "jarraitu"; "beste:"; "alderantzikatu"; "eta:"; "ezta:"; "edo:"; "bai:edo:"; "kopia"; "+"; "gehitu:"; "-"; "kenketak:"; "×"; "biderkatu-arabera:"; "÷"; "zatitzen-arabera:"; ">"; "≥"; "<"; "≤"; "modulo:"; "baxua"; "altua"; "biribildutako"; "absolutua"; "erro-karratu"; "potentzia:"; "bakoitia?"; "bikoitia?"; "positiboa?"; "negatiboa?"; "gordinak"; "artean:eta:"; "adinekoentzat:"; "sailkatuek"; "sin"; "cos"; "tan"; "atan"; "log"; "luzera"; "from:luzera:"; "kendu-inguruko-espazioak"; "pertsonaia:"; "aurkitu:"; "iraungo:"; "ordezkatu:batera:"; "zatitu:"; "maiuskulaz"; "minuskulak"; "desplazamendu:"; "erantsi:"; "nazioarteko-zenbaki"; "hash:"; "karaktere"; "ditu:"; "konparatu:"; "objektu"; "hasi"; "aplikatuko:"; "aplikatu:eta:"; "aplikatu:eta:eta:"; "ezarri:balioa:"; "errorea:"; "harrapatzeko:"; "prozedura"; "bitartean:"; "←"; "~"; ";"; "gunearen-aurretik:"; "hartu-lehen"; "zenbatu"; "batu:"; "hartu-azken"; "posizioa:"; "at:"; "?"; "ordenatu:"; "jarri:en:"; "ordezkatu:luzera:batera:"; "mapa:"; "bakoitzeko:"; "gutxieneko"; "gehienez"; "azken"; "bigarren-azken"; "lehenengo"; "bete:batera:"; "by:"; "sarrerak"; "baloreak"; "dauka:"; "idatzi:"; "stop"; "berria:"; "bidea"; "irakurri"; "existitzen"; "tamaina"; "ezabatu"; "zerrenda:"; "argumentu:"; "argumentu"; "ezarpena:"; "galdetu"; "ezarriz:balioa:"; "memoria-garbi"; "memoria:"; "tidiness:"; "sistemako-komandoa:"; "sarrera"; "hustu"; "memoria"; "erabiltzen-dituzte:"; "galdetu-pasahitza"; "end"; "itxaron:"; "denbora"; "egun"; "eguna:"; "hileko"; "hileko:"; "urte"; "ikasturtea:"; "ordu"; "ordu:"; "minute"; "minutu:"; "bigarren"; "bigarren:"; "asteguna"; "urteko-egun"; "aste"; "zona"; "zona:"; "Objektu"; "Ez"; "Erabakia"; "Egia"; "Faltsua"; "Zenbakia"; "Testua"; "Kodea"; "Zerrenda"; "Mapa"; "Stdout"; "File"; "Programa"; "Moment"; "Instrukzioa"; "Fitxategiaren-kokapena"]);
  ("fa", ["جدید"; "برابر:"; "="; "≠"; "در:انجام:"; "پاسخ دادن:"; "پاسخ:و:"; "پاسخ:و:و:"; "پاسخ:و:و:و:"; "نوع"; "نیل؟"; "خودم"; "انجام دادن"; "انجام شده"; "نادرست:"; "بله:"; "پیام:استدلالات:"; "تبدیل به متن"; "تبدیل به شماره"; "بول"; "مورد:انجام دهید:"; "یاد بگیرند:یعنی:"; "نوشته شده است"; "بازگشتی"; "زنگ تفريح"; "ادامه هید"; "دیگری:"; "نه"; "_و:"; "و نه:"; "یا:"; "یا:یا:"; "رونوشت"; "+"; "اضافه کردن:"; "-"; "کم کردن:"; "×"; "ضربدر:"; "÷"; "تقسیم بر:"; ">"; "≥"; "<"; "≤"; "مدول:"; "کم"; "بالا"; "شماره گرد"; "مطلق"; "ریشه دوم"; "قدرت:"; "فرد؟"; "زوج؟"; "مثبت؟"; "منفی؟"; "خام"; "عدد تصادفی بین:تا:"; "توضیحات:"; "توضیحات"; "sin"; "cos"; "tan"; "atan"; "log"; "طول"; "از:طول:"; "فضاهای اطراف را حذف کنید"; "شخصیت:"; "پیدا کردن:"; "آخر:"; "تعویض:با:"; "شکاف:"; "بزرگ"; "حروف کوچک"; "انحراف:"; "ضمیمه:"; "شماره بین المللی"; "هش:"; "شخصیت ها"; "شامل:"; "مقایسه کنید:"; "به عنوان یک شی"; "اجرا کن"; "درخواست دادن:"; "اعمال:و:"; "اعمال:و:و:"; "مجموعه:مقدار:"; "خطا:"; "گرفتن:"; "روش"; "در حالی که:"; "←"; "•"; ";"; "آماده سازی:"; "عنصر اول را حذف کنید"; "شمردن"; "پیوستن:"; "حذف اخرین عنصر"; "موقعیت:"; "در:"; "?"; "مرتب سازی:"; "قرار دهید:در:"; "جایگزین:طول:با:"; "نقشه:"; "هر یک:"; "کمترین"; "بیشترین"; "آخر"; "دوم آخر"; "اولین"; "شماره:پر کردن:"; "توسط:"; "ورودی های"; "ارزش های"; "دارای:"; "نوشتن:"; "متوقف کردن"; "جدید:"; "مسیر"; "خواندن"; "وجود دارد"; "اندازه"; "حذف"; "لیست:"; "بحث و جدل:"; "استدلال"; "تنظیمات:"; "پرسیدن"; "تنظیم:مقدار:"; "حافظه تمیز"; "حافظه:"; "حافظه کامپیوتر:"; "فرمان سیستم:"; "ورودی"; "خیط و پیت کردن"; "حافظه"; "استفاده کنید:"; "کلمه عبور"; "پایان"; "صبر کن:"; "زمان"; "روز"; "روز:"; "ماه"; "ماه:"; "سال"; "سال:"; "ساعت"; "ساعت:"; "دقیقه"; "دقیقه:"; "دومین"; "دومین:"; "روز هفته"; "روز سال"; "هفته"; "منطقه"; "منطقه:"; "هدف - شی"; "نیل"; "بولی"; "درست است، واقعی"; "غلط"; "عدد"; "متن"; "کد"; "لیست"; "نقشه"; "Stdout"; "فایل"; "برنامه"; "لحظه"; "سفارش"; "محل"]);
  ("fi", ["uusi"; "on-yhtä-kuin:"; "="; "≠"; "on:do:"; "vastata:"; "vastata:ja:"; "vastata:ja:ja:"; "vastata:ja:ja:ja:"; "tyyppi"; "nolla?"; "itse"; "tehdä"; "tehty"; "väärä:"; "totta:"; "viesti:argumentit:"; "teksti"; "määrä"; "boolean"; "tapaus:do:"; "oppia:keinoin:"; "kirjoitettu-koodi"; "rekursiivinen"; "tauko"; "jatkaa"; "else:"; "ei"; "ja:"; "ei-myöskään:"; "tai:"; "tai:tai:"; "kopio"; "+"; "lisätä:"; "-"; "vähentää:"; "×"; "kerro:"; "÷"; "jaettuna:"; ">"; "≥"; "<"; "≤"; "modulo:"; "lattia"; "katosta"; "pyöristää"; "absoluuttinen"; "neliöjuuri"; "teho:"; "outo?"; "jopa?"; "positiivinen?"; "negatiivinen?"; "raaka"; "välillä:ja:"; "pätevöityä:"; "pätevyys"; "sin"; "cos"; "tan"; "atan"; "log"; "pituus"; "alkaen:pituus:"; "poistaa-ympäröivistä-tiloista"; "merkki:"; "löytö:"; "kestää:"; "korvata:lla:"; "jakaa:"; "isoja"; "pieniä"; "offset:"; "append:"; "kansainvälinen-numero"; "hash:"; "merkkiä"; "sisältää:"; "vertailla:"; "esine"; "juosta"; "käytä:"; "sovelletaan:ja:"; "sovelletaan:ja:ja:"; "aseta:arvo:"; "virhe:"; "ottaa-kiinni:"; "menettely"; "sillä-aikaa:"; "←"; "~"; ";"; "prepend-:"; "siirtää"; "kreivi"; "liittyä-seuraan:"; "pop"; "asento:"; "osoitteessa:"; "?"; "järjestellä:"; "laita:osoitteessa:"; "korvata:pituus:joissa:"; "kartta:"; "kukin:"; "minimi"; "enimmäismäärä"; "kestää"; "toiseksi-viimeinen"; "ensimmäinen"; "täytä:lla:"; "per:"; "merkinnät"; "arvot"; "on:"; "kirjoittaa:"; "lopettaa"; "uusi:"; "polku"; "lukea"; "olemassa"; "koko"; "poistaa"; "lista:"; "perustelu:"; "argumentit"; "asetus:"; "kysyä"; "asetus:arvo:"; "puhdas-muisti"; "muisti:"; "siisteys:"; "tietokone:"; "panos"; "väri"; "muisti"; "käyttää:"; "kysy-salasanaa"; "pää"; "odota:"; "aika"; "päivä"; "päivä:"; "kuukausi"; "kuukausi:"; "vuosi"; "vuosi:"; "tunnin"; "tunnin:"; "minuutti"; "minuutti:"; "toinen"; "toinen:"; "arkipäivä"; "päivä-vuodessa"; "viikko"; "aikavyöhyke"; "aikavyöhyke:"; "Esine"; "Nolla"; "Boolean"; "Totta"; "Väärä"; "Määrä"; "Teksti"; "Koodi"; "Lista"; "Kartta"; "Stdout"; "Tiedosto"; "Ohjelmoida"; "Hetki"; "Ohje"; "Sijainti"]);
  ("fr", ["nouveau"; "est-égal-à:"; "="; "≠"; "quand:faire:"; "répondre:"; "répondre:et:"; "répondre:et:et:"; "répondre:et:et:et:"; "type"; "c'est-rien?"; "soi-même"; "faire"; "terminé"; "non:"; "oui:"; "message:arguments:"; "texte"; "nombre"; "oui-ou-non"; "cas:faire:"; "apprenez:signifie:"; "code"; "récursif"; "arrêtez"; "continuer"; "autre:"; "ne-pas"; "et:"; "ni:"; "ou:"; "soit:soit:"; "copie"; "+"; "additionner:"; "-"; "soustraire:"; "×"; "multiplier-par:"; "÷"; "diviser-par:"; ">"; "≥"; "<"; "≤"; "modulo:"; "arrondi-vers-le-bas"; "arrondi-vers-l'haut"; "arrondi"; "absolu"; "racine-carrée"; "à-la-puissance:"; "impair?"; "pair?"; "positif?"; "négatif?"; "brut"; "entre:et:"; "qualification:"; "qualification"; "sin"; "cos"; "tan"; "atan"; "log"; "longueur"; "de:longueur:"; "supprimer-les-espaces-environnants"; "lettre:"; "trouver:"; "dernier:"; "remplacer:par:"; "diviser:"; "majuscules"; "minuscules"; "sauter:"; "ajouter:"; "numéro-international"; "empreinte:"; "lettres"; "contient:"; "comparer:"; "objet"; "commencer"; "appliquer:"; "appliquer:et:"; "appliquer:et:et:"; "donner:valeur:"; "erreur:"; "gestion:"; "procédure"; "tant:"; "←"; "~"; ";"; "insérer:"; "prendre-en-premier"; "compter"; "fusionner:"; "prends-le-dernier"; "position:"; "à:"; "?"; "trier:"; "mettre:à:"; "remplacer:longueur:par:"; "Liste:"; "chaque:"; "minimum"; "maximum"; "dernier"; "avant-dernier"; "premier"; "remplir:avec:"; "par:"; "entrées"; "valeurs"; "a:"; "écrire:"; "stop"; "nouveau:"; "chemin"; "lis"; "existe"; "taille"; "supprimer"; "série:"; "argument:"; "arguments"; "paramètre:"; "demander"; "paramètre:valeur:"; "mémoire-propre"; "mémoire:"; "propreté:"; "commande-système:"; "des-données-d'entrée"; "mettre-en-place"; "mémoire"; "utilisation:"; "demander-le-mot-de-passe"; "fin"; "attendez:"; "temps"; "journée"; "journée:"; "mois"; "mois:"; "année"; "année:"; "heure"; "heure:"; "minute"; "minute:"; "seconde"; "seconde:"; "jour-de-la-semaine"; "jour-de-l']année"; "la-semaine"; "zone"; "zone:"; "Objet"; "Rien"; "Oui-ou-Non"; "Oui"; "Non"; "Nombre"; "Texte"; "Tâche"; "Série"; "Liste"; "Stdout"; "Fichier"; "Programme"; "Moment"; "Instruction"; "Emplacement-du-fichier"]);
  ("fy", ["nĳ"; "is-lyk-oan:"; "="; "≠"; "oan:dwaan:"; "reagearje:"; "reagearje:en:"; "reagearje:en:en:"; "reagearje:en:en:en:"; "type"; "neat?"; "mysels"; "dwaan"; "dien"; "nee:"; "ja:"; "berjocht:arguminten:"; "tekst"; "nûmer"; "beslissing"; "saak:dwaan:"; "leare:betsjut:"; "code"; "rekursyf"; "brekke"; "trochgean"; "oars:"; "net"; "en:"; "noch:"; "of:"; "òf:òf:"; "kopy"; "+"; "optelle:"; "-"; "subtrahearje:"; "×"; "fermannichfâldigje-mei:"; "÷"; "diele-troch:"; ">"; "≥"; "<"; "≤"; "modulo:"; "flier"; "plafond"; "rûn"; "absolút"; "woartel"; "eksponentiaasje:"; "ûneven?"; "sels?"; "posityf?"; "negatyf?"; "rau"; "tusken:en:"; "pleatse:"; "kwalifikaasje"; "sin"; "cos"; "tan"; "atan"; "log"; "lingte"; "fan:lingte:"; "fuortsmite-omlizzende-romten"; "letter:"; "fine:"; "lêst:"; "ferfange:troch:"; "út-inoar-falle:"; "haadletter"; "lytse-letters"; "oerslaan:"; "tafoegje:"; "ynternasjonaal-nûmer"; "kluts:"; "karakters"; "befettet:"; "fergelykje:"; "objekt"; "start"; "tapasse:"; "tapasse:en:"; "jilde:en:en:"; "set:wearde:"; "fersin:"; "hannelje:"; "proseduere"; "wylst:"; "←"; "~"; ";"; "foarôf:"; "ferskowing"; "telle"; "gearfoegje:"; "nim-lêste"; "posysje:"; "by:"; "?"; "sortearje:"; "set:by:"; "ferfange:lingte:mei:"; "map:"; "elk:"; "minimum"; "maksimum"; "lêst"; "twadde-lêste"; "earste"; "folje:mei:"; "troch:"; "yngongen"; "wearden"; "hat:"; "skriuwe:"; "stopje"; "nĳ:"; "paad"; "lêze"; "bestiet"; "grutte"; "wiskje"; "searje:"; "arguminten:"; "arguminten"; "setting:"; "freegje"; "ynstelling:wearde:"; "skjinne-ûnthâld"; "geheugen:"; "geheugenbehear:"; "systeem-kommando:"; "ynfier"; "spuie"; "geheugen"; "brûke:"; "freegje-wachtwurd"; "ein"; "wachtsje:"; "tiid"; "dei"; "dei:"; "moanne"; "moanne:"; "jier"; "jier:"; "oere"; "oere:"; "minút"; "minút:"; "twadde"; "twadde:"; "wykdei"; "dei-fan-it-jier"; "wike"; "sône"; "sône:"; "Objekt"; "Neat"; "Beslissing"; "Ja"; "Nee"; "Nûmer"; "Tekst"; "Taak"; "Searje"; "List"; "Stdout"; "Bestand"; "Programma"; "Momint"; "Ynstruksje"; "Bestânlokaasje"]);
  ("ga", ["nua"; "is-ionann:"; "="; "≠"; "ar:déan:"; "freagair:"; "freagra-a-thabhairt:agus:"; "freagairt:agus:agus:"; "freagairt:agus:agus:agus:"; "cineál"; "nialas?"; "mé-féin"; "dhéanamh"; "déanta"; "bréagach:"; "fíor:"; "teachtaireacht:argóintí:"; "sreangán"; "uimhir"; "boole"; "cás:déan:"; "foghlaim:ciallaíonn:"; "code"; "athchúrsach"; "briseadh"; "leanúint-ar-aghaidh"; "eile:"; "ní"; "agus:"; "ná:"; "nó:"; "ceachtar:nó:"; "cóip"; "+"; "cuir:"; "-"; "dealú:"; "×"; "iolraigh-faoi:"; "÷"; "roinn-le:"; ">"; "≥"; "<"; "≤"; "modulo:"; "urlár"; "ceil"; "cruinn"; "iomlán"; "fréamh-chearnach"; "cumhacht:"; "corr?"; "fiú?"; "dearfach?"; "diúltach?"; "amh"; "idir:agus:"; "cáiliú:"; "cáilíocht"; "sin"; "cos"; "tan"; "atan"; "log"; "fad"; "_ó:fad:"; "bain-na-spásanna-máguaird"; "carachtar:"; "faigh:"; "seo-caite:"; "cuir-in-ionad:le:"; "scoilt:"; "uachtair"; "litreacha-beaga"; "fritháireamh:"; "aguisín:"; "uimhir-idirnáisiúnta"; "hash:"; "carachtair"; "_tá:"; "déan-comparáid-idir:"; "réad"; "rith"; "iarratas-a-dhéanamh:"; "iarratas-a-dhéanamh:agus:"; "iarratas-a-dhéanamh:agus:agus:"; "tacar:luach:"; "earráid:"; "gabháil:"; "nós-imeachta"; "chomh-fada:"; "←"; "~"; ";"; "réamhíoc:"; "aistriú"; "comhaireamh"; "páirt-a-ghlacadh:"; "pop"; "post:"; "ag:"; "?"; "sórtáil:"; "put:at:"; "cuir-in-ionad:fad:le:"; "léarscáil:"; "gach-ceann:"; "ar-a-laghad"; "uasmhéid"; "seo-caite"; "an-dara-ceann-deireanach"; "ar-dtús"; "líonadh:le:"; "le:"; "iontrálacha"; "luachanna"; "tá:"; "scríobh:"; "stad"; "nua:"; "cosán"; "léigh"; "ann"; "méid"; "scriosadh"; "liosta:"; "argóint:"; "argóintí"; "suíomh:"; "iarr"; "suíomh:luach:"; "cuimhne-ghlan"; "cuimhne:"; "slacht:"; "ordú-córais:"; "ionchur"; "flush"; "cuimhne"; "úsáid:"; "iarr-pasfhocal"; "deireadh"; "fan:"; "am"; "lá"; "lá:"; "mhí"; "mí:"; "bhliain"; "bhliain:"; "uair-an-chloig"; "uair-an-chloig:"; "nóiméad"; "nóiméad:"; "dara"; "dara:"; "lá-na-seachtaine"; "lá-den-bhliain"; "seachtain"; "crios"; "crios:"; "Réad"; "Nialas"; "Boole"; "Fíor"; "Bréagach"; "Uimhir"; "Teaghrán"; "Cód"; "Liosta"; "Léarscáil"; "Stdout"; "Comhad"; "Clár"; "Nóiméad"; "Treoir"; "Suíomh-comhaid"]);
  ("gd", ["ùr"; "co-ionann:"; "="; "≠"; "air:dèan:"; "freagairt:"; "freagairt:agus:"; "freagairt:agus:agus:"; "freagairt:agus:agus:agus:"; "seòrsa"; "neoni?"; "mi-fhìn"; "dèan"; "air-a-dhèanamh"; "meallta:"; "fìor:"; "teachdaireachd:argamaidean:"; "sreang"; "àireamh"; "boolean"; "cùis:dèan:"; "ionnsaich:a-']ciallachadh:"; "sgrìobhte"; "ath-chuairteach"; "briseadh"; "lean-ort"; "eile:"; "chan-eil"; "agus:"; "ni:"; "no:"; "an-dàrna-cuid:no:"; "leth-bhreac"; "+"; "cuir:"; "-"; "thoir-air-falbh:"; "×"; "iomadachadh-le:"; "÷"; "roinneadh-le:"; ">"; "≥"; "<"; "≤"; "modulo:"; "cruinn-sìos"; "cruinn-suas"; "cruinn"; "iomlan"; "freumh-ceàrnagach"; "cumhachd:"; "neònach?"; "chothrom?"; "deimhinneach?"; "àicheil?"; "amh"; "eadar:agus:"; "airidh:"; "teisteanas"; "sin"; "cos"; "tan"; "atan"; "log"; "faid"; "bho:faid:"; "thoir-air-falbh-àiteachan-mun-cuairt"; "caractar:"; "lorg:"; "mu-dheireadh:"; "cuir-an-àite:le:"; "sgoltadh:"; "uppercase"; "litrichean-beaga"; "air-a-chothromachadh:"; "eàrr-sgrìobhadh:"; "àireamh-eadar-nàiseanta"; "hash:"; "caractaran"; "tha:"; "dèan-coimeas:"; "rud"; "ruith"; "tagradh:"; "buntainn:agus:"; "buntainn:agus:agus:"; "seata:luach:"; "mearachd:"; "glacadh:"; "modh-obrach"; "fhad-']sa:"; "←"; "~"; ";"; "prepend:"; "gluasad"; "cunnt"; "gabh-a-steach:"; "pop"; "àite:"; "aig:"; "?"; "òrdugh:"; "cuir:le:"; "cuir-an-àite:length:le:"; "mapa:"; "gach:"; "as-ìsle"; "as-àirde"; "mu-dheireadh"; "an-dàrna-fear-mu-dheireadh"; "a-']chiad"; "lìon:le:"; "le:"; "inntrigidhean"; "luachan"; "air:"; "sgrìobh:"; "stad"; "ùr:"; "frith-rathad"; "leugh"; "ann"; "meud"; "cuir-às"; "liosta:"; "argamaid:"; "argamaidean"; "suidheachadh:"; "faighnich"; "suidheachadh:luach:"; "cuimhne-glan"; "cuimhne:"; "sgioblachadh:"; "òrdugh-siostam:"; "cuir-a-steach"; "sruthadh"; "cuimhne"; "cleachdadh:"; "faighnich-facal-faire"; "deireadh"; "feitheamh:"; "ùine"; "latha"; "latha:"; "mìos"; "mìos:"; "bliadhna"; "bliadhna:"; "uair"; "uair:"; "mionaid"; "mionaid:"; "an-dàrna"; "an-dàrna:"; "latha-seachdaineach"; "latha-den-bhliadhna"; "seachdain"; "sòn"; "sòn:"; "Rud"; "Neoni"; "Boole"; "Fìor"; "Meallta"; "Àireamh"; "Teacs"; "Còd"; "Liosta"; "Mapa"; "Stdout"; "Faidhle"; "Prògram"; "Mionaid"; "Stiùireadh"; "Suidheachadh-faidhle"]);
  ("gl", ["novo"; "igual-a:"; "="; "≠"; "en:facer:"; "responder:"; "responder:e:"; "responder:e:e:"; "responder:e:e:e:"; "tipo"; "nil?"; "eu-mesmo"; "facer"; "feito"; "falso:"; "certo:"; "mensaxe:argumentos:"; "texto"; "número"; "booleano"; "caso:facer:"; "aprender:significa:"; "código"; "recursivo"; "romper"; "continuar"; "máis:"; "non"; "e:"; "nin:"; "ou:"; "ou:ou:"; "copia"; "+"; "engadir:"; "-"; "restar:"; "×"; "multiplica-por:"; "÷"; "dividir-por:"; ">"; "≥"; "<"; "≤"; "módulo:"; "baixa"; "alta"; "redondo"; "absoluto"; "raíz-cadrada"; "potencia:"; "impar?"; "par?"; "positivo?"; "negativa?"; "cru"; "entre:e:"; "cualificar:"; "cualificación"; "sin"; "cos"; "tan"; "atan"; "log"; "de-lonxitude"; "de:lonxitude:"; "elimina-espazos-circundantes"; "personaxe:"; "atopar:"; "último:"; "substituír:por:"; "partir:"; "maiúsculas"; "minúscula"; "compensación:"; "sufixo:"; "número-internacional"; "hash:"; "personaxes"; "contén:"; "comparar:"; "obxecto"; "correr"; "aplicar:"; "aplicar:e:"; "aplicar:e:e:"; "conxunto:valor:"; "erro:"; "captura:"; "procedemento"; "mentres:"; "←"; "~"; ";"; "prefixo:"; "toma-o-primeiro"; "conta"; "unirse:"; "toma-o-último"; "posición:"; "en:"; "?"; "ordenar:"; "poñer:en:"; "substituír:lonxitude:con:"; "mapa:"; "cada-un:"; "mínimo"; "máximo"; "último"; "segundo-último"; "primeira"; "encher:con:"; "por:"; "entradas"; "valores"; "ten:"; "escribir:"; "parar"; "novo:"; "camiño"; "ler"; "existe"; "tamaño"; "eliminar"; "lista:"; "argumento:"; "argumentos"; "configuración:"; "pregunta"; "configuración:valor:"; "memoria-limpa"; "memoria:"; "ordenamento:"; "sistema:"; "entrada"; "rubor"; "memoria"; "usar:"; "preguntar-contrasinal"; "final"; "agarda:"; "tempo"; "día"; "día:"; "mes"; "mes:"; "ano"; "ano:"; "hora"; "hora:"; "minuto"; "minuto:"; "segundo"; "segundo:"; "día-da-semana"; "día-do-ano"; "semana"; "zona"; "zona:"; "Obxecto"; "Nil"; "Booleano"; "Certo"; "Falso"; "Número"; "Texto"; "Código"; "Lista"; "Mapa"; "Stdout"; "Arquivo"; "Programa"; "Momento"; "Instrución"; "Rota"]);
  ("gu", ["નવું"; "બરાબર:"; "="; "≠"; "ચાલુ:કરો:"; "જવાબ:"; "જવાબ:અને:"; "જવાબ:અને:અને:"; "પ્રતિસાદ:અને:અને:અને:"; "પ્રકાર"; "ખાલી?"; "મારી-જાતને"; "કરવું"; "થઈ-ગયું"; "નાું:"; "હાું:"; "સંદેશ:દલીલો:"; "ગીતાત્મક-રીતે"; "સંખ્યાત્મક"; "નિર્ણય"; "કેસ:કરો:"; "શીખો:અર્થ:"; "વર્ણન"; "પુનરાવર્તિત"; "બંધ"; "ચાલુ-રાખો"; "નહી-તો:"; "નથી"; "અને:"; "કે-નહીં:"; "અથવા:"; "કાં-તો:અથવા:"; "નકલ"; "+"; "ઉમેરો:"; "-"; "બાદબાકી:"; "×"; "દ્વારા-ગુણાકાર:"; "÷"; "દ્વારા-વિભાજીત:"; ">"; "≥"; "<"; "≤"; "મોડ્યુલો:"; "નીચું"; "ઉચ્ચ"; "ગોળ"; "સંપૂર્ણ"; "વર્ગમૂળ"; "શક્તિ:"; "એકી?"; "પણ?"; "હકારાત્મક?"; "નકારાત્મક?"; "કાચો"; "વચ્ચે:અને:"; "લાક્ષણિકતા:"; "લાક્ષણિકતા"; "sin"; "cos"; "tan"; "atan"; "log"; "લંબાઈ"; "થી:લંબાઈ:"; "આસપાસની-જગ્યાઓ-દૂર-કરો"; "પાત્ર:"; "શોધો:"; "છેલ્લા:"; "બદલો:સાથે:"; "ભાગલા:"; "અપરકેસ"; "લોઅરકેસ"; "setફસેટ:"; "જોડવું:"; "આંતરરાષ્ટ્રીય-નંબર"; "હેશ:"; "અક્ષરો"; "સમાવે-છે:"; "તુલના:"; "jectબ્જેક્ટ"; "ચલાવો"; "લાગુ-કરો:"; "લાગુ-કરો:અને:"; "લાગુ-કરો:અને:અને:"; "સેટ-કરો:મૂલ્ય:"; "ભૂલ:"; "કેચ:"; "પ્રક્રિયા"; "જ્યારે:"; "←"; "~"; ";"; "પ્રિપેન્ડ:"; "પ્રથમ-પદાર્થ-પકડો"; "ગણતરી"; "જોડાઓ:"; "છેલ્લો-પદાર્થ-પકડો"; "સ્થિતિ:"; "પર:"; "?"; "સ-sortર્ટ-કરો:"; "મૂકો:પર:"; "બદલો:લંબાઈ:સાથે:"; "યાદી-બનાવ:"; "દરેક:"; "લઘુત્તમ"; "મહત્તમ"; "છેલ્લા"; "બીજો-છેલ્લો"; "પ્રથમ"; "ભરો:સાથે:"; "દ્વારા:"; "પ્રવેશો"; "મૂલ્યો"; "છે:"; "લખો:"; "અંત"; "નવું:"; "માર્ગ"; "વાંચવું"; "અસ્તિત્વમાં-છે"; "કદ"; "કા-ી-નાખો"; "સારાંશ:"; "દલીલ:"; "દલીલો"; "સેટિંગ:"; "પુછવું"; "સેટિંગ:મૂલ્ય:"; "સ્વચ્છ-મેમરી"; "મેમરી:"; "સુવ્યવસ્થિતતા:"; "સિસ્ટમ-આદેશ:"; "ઇનપુટ"; "ફ્લશ"; "મેમરી"; "વાપરવુ:"; "પાસવર્ડ-પૂછો"; "બહાર"; "રાહ-જુઓ:"; "સમય"; "દિવસ"; "દિવસ:"; "માસ"; "માસ:"; "વર્ષ"; "વર્ષ:"; "કલાક"; "કલાક:"; "મિનિટ"; "મિનિટ:"; "બીજું"; "બીજું:"; "અઠવાડિયાનો-દિવસ"; "વર્ષનો-દિવસ"; "અઠવાડિયું"; "ઝોન"; "ઝોન:"; "Jectબ્જેક્ટ"; "ખાલી"; "હા-કે-ના"; "હા"; "ના"; "નંબર"; "ટેક્સ્ટ"; "કોડ"; "કતાર"; "યાદી"; "Stdout"; "ફાઇલ"; "કાર્યક્રમ"; "ક્ષણ"; "સૂચના"; "ફાઇલ-સ્થાન"]);
  ("ha", ["sabo"; "daidai:"; "="; "≠"; "akan:yi:"; "amsa:"; "amsa:da:"; "amsa:da:kuma:"; "amsa:da:da:kuma:"; "nau']in"; "nil?"; "kaina"; "yi"; "aikata"; "arya:"; "gaskiya:"; "sako:muhawara:"; "rubutu"; "lamba"; "boolean"; "harka:yi:"; "koya:yana-nufin:"; "code"; "maimaitawa"; "fasa"; "ci-gaba"; "kuma:"; "ba"; "da:"; "kuma-ba:"; "ko:"; "ko-dai:ko:"; "kwafa"; "+"; "kara:"; "-"; "cire:"; "×"; "ninka-da:"; "÷"; "raba-ta:"; ">"; "≥"; "<"; "≤"; "mai-amfani:"; "ƙananan"; "babba"; "zagaye"; "cikakken"; "tushe-mai-tushe"; "iko:"; "wari?"; "ko-da?"; "tabbatacce?"; "korau?"; "raw"; "tsakanin:da:"; "cancanta:"; "cancanta"; "sin"; "cos"; "tan"; "atan"; "log"; "tsawon"; "daga:tsayi:"; "cire-wuraren-da-ke-kewaye-da-su"; "hali:"; "samu:"; "na-karshe:"; "maye-gurbin:tare-da:"; "tsaga:"; "babban"; "casearamin-baki"; "biya-diyya:"; "suffix:"; "lambar-duniya"; "zanta:"; "haruffa"; "ya-ƙunshi:"; "kwatanta:"; "nasihu"; "gudu"; "nema:"; "nema:da:"; "nema:da:kuma:"; "saita:darajar:"; "kuskure:"; "kama:"; "yanke-shawara"; "yayin:"; "←"; "~"; ";"; "prefix:"; "matsawa"; "kirga"; "shiga:"; "pop"; "matsayi:"; "a:"; "?"; "raba:"; "sanya:a:"; "maye-gurbin:tsawon:tare-da:"; "taswira:"; "kowane:"; "mafi-ƙasƙanci"; "matsakaici"; "karshe"; "na-biyu-na-karshe"; "na-farko"; "cika:da:"; "kowace-raka'a:"; "shigarwar"; "dabi']u"; "yana-da:"; "rubuta:"; "tsayawa"; "sabo:"; "hanya"; "karanta"; "wanzu"; "girma"; "share"; "jeri:"; "shawara:"; "muhawara"; "saiti:"; "tambaya"; "saiti:darajar:"; "ƙwaƙwalwar-tsabta"; "ƙwaƙwalwar-ajiya:"; "labarai:"; "umurnin-tsarin:"; "labari"; "ja-ruwa"; "ƙwaƙwalwa"; "amfani:"; "tambaya-kalmar-sirri"; "ƙare"; "jira:"; "lokaci"; "rana"; "rana:"; "wata"; "watan:"; "shekara"; "shekara:"; "awa"; "awa:"; "minti"; "minti:"; "na-biyu"; "na-biyu:"; "ranar-mako"; "ranar-shekara"; "mako"; "sashi"; "yanki:"; "Nasihu"; "Nil"; "Boolean"; "Gaskiya-ne"; "Karya"; "Lambar"; "Rubutu"; "Aiki"; "Jerin"; "Taswira"; "Stdout"; "Fayiloli"; "Shirin"; "Lokacin"; "Umarni"; "Wurin-fayil"])].
