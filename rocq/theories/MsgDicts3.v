(** The words for built-in messages and objects in the languages mn to sr (i18n/*/dictionary.h 7-203),
    in the order of [macros] (RegTable.v). *)
From Coq Require Import List String.
Import ListNotations.
Local Open Scope string_scope.

Definition dictionaries3 : list (string * list string) := [
  ("mn", ["шинэ"; "тэнцүү:"; "="; "≠"; "хэрэв:үйлдэл:"; "хариу-бичих:"; "хариу-бичих:мөн:"; "хариу-бичих:мөн:мөн:"; "хариу-бичих:мөн:мөн:мөн:"; "төрөл"; "Нил-үү?"; "би-өөрөө"; "хийх"; "хийсэн"; "үгүй:"; "тиймээ:"; "зурвас:аргумент:"; "текст"; "дугаар"; "boolean"; "хэрэг:хийх:"; "сурах:утга-учир:"; "код"; "рекурсив"; "завсарлага"; "үргэлжлүүлнэ-үү"; "бусад:"; "биш"; "бас:"; "бас-үгүй:"; "эсвэл:"; "эсвэл:эсвэл:"; "хуулах"; "+"; "нэмэх:"; "-"; "хасах:"; "×"; "үржүүлэх:"; "÷"; "хуваах:"; ">"; "≥"; "<"; "≤"; "модуль:"; "доош"; "дээшээ"; "дугуй"; "үнэмлэхүй"; "квадрат-язгуур"; "хүч:"; "сондгой?"; "тэгш?"; "эерэг?"; "сөрөг-байна-уу?"; "түүхий"; "хооронд:мөн:"; "шалгарах:"; "мэргэшлийн"; "sin"; "cos"; "tan"; "atan"; "log"; "урт"; "байршил:урт:"; "хүрээлэн-буй-зайг-арилгах"; "тэмдэгт:"; "хайх:"; "сүүлд:"; "хуучин:Шинэ:"; "салгах:"; "том-үсэг"; "жижиг-үсэг"; "офсет:"; "дагавар:"; "олон-улсын-дугаар"; "хэш:"; "тэмдэгтүүд"; "агуулсан:"; "харьцуулах:"; "бүтэц"; "гүйх"; "өргөдөл-гаргах:"; "өргөдөл-гаргах:мөн:"; "өргөдөл-гаргах-мөн:мөн:мөн:"; "багц:утга:"; "алдаа:"; "барих:"; "журам"; "байхад:"; "←"; "~"; ";"; "угтвар:"; "авах-урд"; "тоолох"; "нэгдэх:"; "авах-арын"; "байрлал:"; "үед:"; "?"; "ангилах:"; "объект:байршил:"; "солих:урт:хамт:"; "жагсаалт:"; "тус-бүр:"; "хамгийн-бага"; "хамгийн-их"; "сүүлчийн"; "хоёр-дахь-нь-сүүлд"; "хамгийн-түрүүнд"; "бөглөх:обьект:"; "бичсэн:"; "оруулгууд"; "үнэт-зүйлс"; "байна:"; "бичих:"; "Зогс"; "шинэ:"; "зам"; "уншсан"; "байдаг"; "хэмжээ"; "устгах"; "цуврал:"; "аргумент:"; "аргументууд"; "тохиргоо:"; "гэж-асуу"; "Тохируулга:утга:"; "цэвэр-ой-санамж"; "дурсамж:"; "цэвэр-байдал:"; "Системийн-Тушаал:"; "оролт"; "угаах"; "дурсамж"; "ашиглах:"; "нууц-үг-асуух"; "Төгсгөл"; "хүлээх-цаг:"; "цаг-хугацаа"; "өдөр"; "өдөр:"; "сар"; "сар:"; "жил"; "жил:"; "цаг"; "цаг:"; "минут"; "минут:"; "хоёрдахь-нь"; "хоёрдугаарт:"; "ажлын-өдөр"; "жилийн-өдөр"; "долоо-хоног"; "бүс"; "бүс:"; "Обьект"; "Нил"; "Boolean"; "Тиймээ"; "Үгүй"; "Тоо"; "Текст"; "ажил"; "Цуврал"; "Жагсаалт"; "Stdout"; "Файл"; "Хөтөлбөр"; "Ээж"; "Зааварчилгаа"; "Файлын-байршил"]);
  ("mo", ["neł"; "equals:"; "="; "≠"; "met:do:"; "respond:"; "respond:and:"; "respond:and:and:"; "respond:and:and:and:"; "tjpe"; "nil?"; "mjself"; "tå"; "done"; "nu:"; "da:"; "message:arguments:"; "striŋ"; "number"; "būlean"; "case:do:"; "learn:means:"; "code"; "recursive"; "break"; "continue"; "else:"; "ban"; "to:"; "nor:"; "ŧa:"; "eiżer:or:"; "copj"; "+"; "add:"; "-"; "subtract:"; "×"; "multiplj-bj:"; "÷"; "divide-bj:"; ">"; "≥"; "<"; "≤"; "modulo:"; "flūr"; "ceil"; "rūnd"; "absolute"; "square-rūt"; "połer:"; "odd?"; "even?"; "positive?"; "negative?"; "rał"; "betłeen:and:"; "qualifj:"; "qualification"; "sin"; "cos"; "tan"; "atan"; "log"; "leŋż"; "from:leŋż:"; "remove-surrūndiŋ-spaces"; "čaracter:"; "find:"; "last:"; "replace:łiż:"; "split:"; "uppercase"; "lołercase"; "offset:"; "append:"; "international-number"; "haš:"; "čaracters"; "contains:"; "compare:"; "obđect"; "run"; "applj:"; "applj:and:"; "applj:and:and:"; "set:value:"; "error:"; "catč:"; "prosedure"; "în-timpul:"; "←"; "~"; ";"; "prepend:"; "šift"; "cūnt"; "đoin:"; "pop"; "position:"; "vek:"; "?"; "sort:"; "pune:la:"; "replace:leŋż:łiż:"; "serieă:"; "eač:"; "minimum"; "maximum"; "last"; "second-last"; "first"; "fill:łiż:"; "bj:"; "entries"; "values"; "bena:"; "łrite:"; "stop"; "_neł:"; "paż"; "read"; "exists"; "size"; "delete"; "serie:"; "argument:"; "arguments"; "settiŋ:"; "ask"; "settiŋ:value:"; "clean-memorj"; "memorj:"; "tidiness:"; "comanda-sistemului:"; "input"; "fluš"; "memorj"; "use:"; "ask-passłord"; "end"; "łait:"; "time"; "daj"; "daj:"; "monż"; "monż:"; "jear"; "jear:"; "hūr"; "_hūr:"; "minute"; "minute:"; "second"; "second:"; "łeekdaj"; "daj-of-że-jear"; "łeek"; "zone"; "zone:"; "Obđect"; "Nil"; "Būlean"; "Da"; "Nu"; "Number"; "Striŋ"; "Code"; "Serie"; "Serieă"; "Stdout"; "File"; "Program"; "Moment"; "Command"; "Path"]);
  ("mr", ["नवीन"; "समान:"; "="; "≠"; "चालू:करा:"; "प्रतिसाद द्या:"; "प्रतिसाद द्या:आणि:"; "प्रतिसाद द्या:आणि:आणि:"; "प्रतिसाद द्या:आणि:आणि:आणि:"; "प्रकार"; "शून्य?"; "मी"; "करा"; "केले"; "_खोटे:"; "_खरे:"; "संदेश:युक्तिवाद:"; "_स्ट्रिंग"; "_संख्या"; "_बुलियन"; "केस:कराः__:"; "शिकणे:म्हणजेः__:"; "code"; "रिकर्सिव"; "ब्रेक"; "सुरू"; "अन्यथा:"; "नाही"; "आणि:"; "_किंवा:"; "किंवा:"; "किंवा:__:"; "प्रत"; "+"; "_जोडा:"; "-"; "वजा:"; "×"; "ने गुणाकारः__:"; "÷"; "द्वारा विभाजितः__:"; ">"; "≥"; "<"; "≤"; "मोड्युलो:"; "फ्लोर"; "सील"; "पूर्ण"; "परिपूर्ण"; "वर्गमुळ"; "वर्ग:"; "विचित्र?"; "अगदी?"; "सकारात्मक?"; "नकारात्मक?"; "कच्चा"; "मध्ये आणि:__:"; "पात्र:"; "पात्रता"; "sin"; "cos"; "tan"; "atan"; "log"; "लांबी"; "पासून:लांबी:"; "आसपासची मोकळी जागा काढा"; "वर्ण:"; "शोधणे:"; "अंतिम:"; "पुनर्स्थित:सह:"; "विभाजन:"; "अपरकेस"; "लोअरकेस"; "ऑफसेट:"; "जोडा:"; "आंतरराष्ट्रीय क्रमांक"; "हॅश:"; "वर्ण"; "समाविष्टीत:"; "तुलना करा:"; "एक वस्तू म्हणून"; "चालवा"; "लागू करा:"; "लागू करा:आणि:"; "लागू करा:आणि:आणि:"; "सेट:मूल्य:"; "त्रुटी:"; "झेल:"; "प्रक्रिया"; "करताना:"; "←"; "•"; ";"; "प्रीपेन्ड:"; "शिफ्ट"; "मोजा"; "सामील व्हा:"; "पॉप"; "स्थितीः__:"; "येथे:"; "?"; "क्रमवारी लावा:"; "ठेवले:येथे:"; "पुनर्स्थित करा:लांबी:सह:"; "_नकाशा:"; "प्रत्येक:"; "किमान"; "जास्तीत जास्त"; "शेवटचा"; "शेवटून दुसरा"; "पहिला"; "भरा:सह:"; "द्वाराः__:"; "नोंदी"; "मूल्ये"; "आहे:"; "लिहा:"; "थांबा"; "_नवीन:"; "मार्ग"; "वाचा"; "अस्तित्वात"; "आकार"; "हटवा"; "_यादी:"; "युक्तिवाद:"; "वितर्क"; "सेटिंगः__:"; "विचारा"; "सेटिंग:मूल्य:"; "स्वच्छ स्मृती"; "स्मरणशक्ती:"; "स्वच्छता:"; "शेल:"; "इनपुट"; "फ्लश"; "स्मृती"; "वापरा:"; "पासवर्ड विचारा"; "शेवट"; "प्रतीक्षा:"; "वेळ"; "दिवस"; "_दिवस:"; "महिना"; "_महिना:"; "वर्ष"; "_वर्ष:"; "तास"; "_तास:"; "मिनिट"; "मिनिट:"; "दुसरा"; "दुसरा:"; "आठवड्याचा दिवस"; "वर्षाचा दिवस"; "आठवडा"; "झोन"; "क्षेत्र:"; "ऑब्जेक्ट"; "शून्य"; "बुलियन"; "खरे"; "खोटे"; "संख्या"; "स्ट्रिंग"; "कोड"; "यादी"; "नकाशा"; "✎"; "फाईल"; "कार्यक्रम"; "क्षण"; "सूचना"; "जागा"]);
  ("ms", ["baru"; "bersamaan-dengan:"; "="; "≠"; "pada:lakukan:"; "membalas:"; "balas:dan:"; "balas:dan:dan:"; "balas:dan:dan:dan:"; "jenis"; "tiada?"; "saya-sendiri"; "buat"; "dilakukan"; "salah:"; "benar:"; "mesej:argumen:"; "teks"; "nombor"; "boolean"; "kes:lakukan:"; "belajar:ertinya:"; "kod-bertulis"; "rekursif"; "pecah"; "teruskan"; "lain:"; "tidak"; "dan:"; "tidak-juga:"; "atau:"; "atau:atau:"; "salinan"; "+"; "tambah:"; "-"; "tolak:"; "×"; "berganda-dengan:"; "÷"; "kongsi-dengan:"; ">"; "≥"; "<"; "≤"; "modulo:"; "lantai"; "ceil"; "pusingan"; "mutlak"; "punca-kuasa-dua"; "kuasa:"; "ganjil?"; "genap?"; "positif?"; "negatif?"; "mentah"; "antara:dan:"; "layak:"; "kelayakan"; "sin"; "cos"; "tan"; "atan"; "log"; "panjang"; "dari:panjang:"; "keluarkan-ruang-sekeliling"; "watak:"; "cari:"; "terakhir:"; "menggantikan:dengan:"; "berpecah:"; "huruf-besar"; "huruf-kecil"; "mengimbangi:"; "akhiran:"; "nombor-antarabangsa"; "hash:"; "watak"; "mengandungi:"; "bandingkan:"; "objek"; "berlari"; "memohon:"; "memohon:dan:"; "memohon:dan:dan:"; "tetapkan:nilai:"; "kesilapan:"; "tangkapan:"; "prosedur"; "sementara:"; "←"; "~"; ";"; "prefiks:"; "ambil-objek-pertama"; "kiraan"; "sertai:"; "dapatkan-objek-terakhir"; "kedudukan:"; "di:"; "?"; "semak:"; "meletakkan:pada:"; "menggantikan:panjang:dengan:"; "peta:"; "setiap:"; "minimum"; "maksimum"; "lepas"; "kedua-terakhir"; "pertama"; "isi:dengan:"; "oleh:"; "penyertaan"; "nilai-nilai"; "mempunyai:"; "tulis:"; "berhenti"; "baru:"; "jalan"; "baca"; "wujud"; "saiz"; "padam"; "senarai:"; "hujah:"; "hujah-hujah"; "penetapan:"; "tanya"; "penetapan:nilai:"; "ingatan-bersih"; "ingatan:"; "kebersihan:"; "komputer:"; "input"; "siram"; "ingatan"; "gunakan:"; "tanya-kata-laluan"; "akhir"; "tunggu:"; "masa"; "hari"; "hari:"; "bulan"; "bulan:"; "tahun"; "tahun:"; "jam"; "jam:"; "minit"; "minit:"; "kedua"; "kedua:"; "hari-kerja"; "hari-ini"; "minggu"; "kawasan"; "kawasan:"; "Objek"; "Tiada"; "Boolean"; "Benar"; "Salah"; "Nombor"; "Teks"; "Kod"; "Senarai"; "Peta"; "Stdout"; "Fail"; "Program"; "Moment"; "Arahan"; "Lokasi-fail"]);
  ("mt", ["ġdid"; "huwa-ugwali:"; "="; "≠"; "fuq:tagħmel:"; "wieġeb:"; "wieġeb:u:"; "wieġeb:u:u:"; "wieġeb:u:u:u:"; "tip"; "nil?"; "jien-stess"; "tagħmel"; "sar"; "falza:"; "vera:"; "messaġġ:argumenti:"; "deskrizzjoni"; "numru"; "boolean"; "każ:tagħmel:"; "titgħallem:tfisser:"; "kodiċi"; "rikursiv"; "ikissru"; "kompli"; "inkella:"; "mhux"; "u:"; "u-lanqas:"; "jew:"; "jew:jew:"; "kopja"; "+"; "żid:"; "-"; "naqqas:"; "×"; "immoltiplika-bi:"; "÷"; "aqsam-minn:"; ">"; "≥"; "<"; "≤"; "modulo:"; "arrotondat'l-isfel"; "arrotondat'il-fuq"; "arrotondat"; "assoluta"; "għerq-kwadru"; "qawwa:"; "stramb?"; "anke?"; "pożittiv?"; "negattiv?"; "nej"; "bejn:u:"; "jikkwalifika:"; "kwalifikazzjoni"; "sin"; "cos"; "tan"; "atan"; "log"; "it-tul"; "minn:tul:"; "neħħi-l-ispazji-tal-madwar"; "karattru:"; "issib:"; "l-aħħar:"; "ibdel:bi:"; "maqsum:"; "minuskoli"; "minusklu"; "tpattija:"; "suffiss:"; "numru-internazzjonali"; "hash:"; "karattri"; "fih:"; "qabbel:"; "oġġett"; "ġirja"; "applika:"; "applika:u:"; "applika:u:u:"; "sett:valur:"; "żball:"; "qabda:"; "proċedura"; "waqt:"; "←"; "~"; ";"; "prefiss:"; "ħu-l-ewwel"; "tgħodd"; "jingħaqdu:"; "ħu-l-aħħar"; "pożizzjoni:"; "fi:"; "?"; "ordni:"; "tpoġġi:fi:"; "ibdel:tul:bi:"; "mappa:"; "kull-waħda:"; "minimu"; "massimu"; "l-aħħar"; "it-tieni-l-aħħar"; "l-ewwel"; "imla:bi:"; "minn:"; "iskrizzjonijiet"; "valuri"; "għandu:"; "ikteb:"; "waqfa"; "ġdid:"; "triq"; "aqra"; "teżisti"; "daqs"; "ħassar"; "serje:"; "argument:"; "argumenti"; "issettjar:"; "staqsi"; "issettjar:valur:"; "memorja-nadifa"; "memorja:"; "pulita:"; "kmand-tas-sistema:"; "input"; "laħlaħ"; "memorja"; "uża:"; "staqsi-password"; "itemm"; "stenna:"; "iż-żmien"; "jum"; "jum:"; "fix-xahar"; "xahar:"; "sena"; "sena:"; "siegħa"; "siegħa:"; "minuta"; "minuta:"; "it-tieni"; "it-tieni:"; "matul-il-ġimgħa"; "jum-tas-sena"; "ġimgħa"; "żona"; "żona:"; "Oġġett"; "Nil"; "Boolean"; "Veru"; "Falz"; "Numru"; "Test"; "Kompitu"; "Serje"; "Lista"; "Stdout"; "Fajl"; "Programm"; "Mument"; "Istruzzjoni"; "Post-tal-fajl"]);
  ("my", ["အသစ်"; "ညီမျှသည်:"; "="; "≠"; "သတင်းစကား:အလုပ်:"; "ဖြေ:"; "ဖြေ:နှင့်:"; "ဖြေ:နှင့်:နှင့်:"; "ဖြေ:နှင့်:နှင့်:နှင့်:"; "အမျိုးအစား"; "ဗလာ?"; "ငါကိုယ်တိုင်"; "လုပ်တယ်"; "ပြီးပြီ"; "မဟုတ်ဘူး:"; "ဟုတ်ကဲ့:"; "သတင်းစကား:ပူးတွဲပါဖိုင်များ:"; "ဖော်ပြချက်"; "နံပါတ်များ"; "ဆုံးဖြတ်ချက်"; "အခြေအနေ:အလုပ်:"; "သတိရပါ:အဓိပ္ပါယ်:"; "ရေးထားတယ"; "ကုထုံး"; "ရပ်"; "ဆက်လက်"; "မဟုတ်ရင်:"; "ပြောင်းပြန်"; "နှင့်:"; "မဟုတ်ပါ:"; "သို့မဟုတ်:"; "သို့မဟုတ်:သို့မဟုတ်:"; "ကူးယူပါ"; "+"; "ထည့်ပါ:"; "-"; "နုတ်ပါ:"; "×"; "ဖြင့်မြှောက်ပါ:"; "÷"; "ခွဲပါ:"; ">"; "≥"; "<"; "≤"; "မိုဒူလို:"; "နိမ့်"; "မြင့်သည်"; "ပတ်ပတ်လည်"; "အကြွင်းမဲ့အာဏာ"; "စတုရန်းအမြစ်"; "မှ:"; "ထူးဆန်း?"; "တောင်မှ?"; "အကောင်းမြင်လား"; "အနုတ်လား"; "ကုန်ကြမ်း"; "အကြား:နှင့်:"; "ထူးခြားချက်:"; "ထူးခြားချက်"; "sin"; "cos"; "tan"; "atan"; "log"; "အရှည်"; "မှ:အရှည်:"; "ပတျဝနျးကငျြနေရာများဖယ်ရှားလိုက်ပါ"; "သင်္ကေတ:"; "ရာထူး:"; "နောက်တန်း-အနေအထား:"; "အဟောင်း:အသစ်:"; "ကွဲ:"; "စာလုံးကြီး"; "စာလုံးအသေး"; "ခုန်ရန်:"; "နောက်ဆက်:"; "နံပါတ်များ-နိုင်ငံတကာ"; "ညောင်ပင်:"; "ဇာတ်ကောင်များ"; "ပါဝင်သည်:"; "နှိုင်းယှဉ်ပါ:"; "အရာဝတ္ထုအဖြစ်"; "ပြေး"; "လျှောက်ထားရန်:"; "လျှောက်ထားရန်:နှင့်:"; "လျှောက်ထားရန်:နှင့်:နှင့်:"; "အစုံ:တန်ဖိုး:"; "အမှား:"; "ဖမ်း:"; "လုပ်ထုံးလုပ်နည်း"; "စဉ်တွင်:"; "←"; "~"; ";"; "ရှေ့ဆက်:"; "ပထမပစ္စည်းကို-ယူပါ"; "ရေတွက်"; "ပူးပေါင်းမည်:"; "နောက်ဆုံးပစ္စည်းကိုယူပါ"; "အနေအထား:"; "မှာ:"; "?"; "မျိုး:"; "ရွှေ့:သို့:"; "အစားထိုး:အရှည်:နှင့်အတူ:"; "စာရင်း:"; "တစ်ခုချင်းစီကို:"; "အနိမ့်ဆုံး"; "အများဆုံး"; "နောက်ဆုံး"; "ဒုတိယနောက်ဆုံး"; "ပထမ"; "ဖြည့်စွက်ရန်:အရာဝတ္ထု:"; "ယူနစ်တစ်ခု:"; "သော့ချက်စာလုံးများ"; "တန်ဖိုးများ"; "ပါရှိသည်:"; "ရေးပါ:"; "လိုင်းချိုး"; "အသစ်:"; "လမ်းကြောင်း"; "ဖတ်ပါ"; "တည်ရှိ"; "အရွယ်အစား"; "ဖျက်ပါ"; "စီးရီး:"; "အငြင်းအခုံ:"; "အငြင်းပွားမှုများ"; "ပတ်ဝန်းကျင်:"; "မေး"; "ပတ်ဝန်းကျင်:အကြောင်းအရာများ:"; "မှတ်ဉာဏ်သန့်ရှင်း"; "မှတ်ဉာဏ်:"; "သန့်ရှင်းမှု:"; "စက်:"; "ထည့်သွင်း-ချန်နယ်"; "ကွိုင်"; "မှတ်ဉာဏ်"; "အသုံးပြုမှု:"; "password-တောင်းပါ"; "အဆုံး"; "စောင့်ပါ:"; "အချိန်"; "နေ့?"; "ရက်:"; "လ?"; "လ:"; "နှစ်?"; "နှစ်:"; "နာရီ?"; "နာရီ:"; "မိနစ်?"; "မိနစ်:"; "ဒုတိယ?"; "ဒုတိယ:"; "သီတဂူဆရာတော်?"; "တစ်နှစ်တာ၏နေ့?"; "သီတင်းပတ်"; "ဇုန်?"; "ဇုန်:"; "အရာဝတ္ထု"; "ဗလာ"; "ဟုတ်တယ်မဟုတ်ဘူး"; "ဟုတ်ကဲ့"; "မဟုတ်ဘူး"; "နံပါတ်"; "စာသား"; "အလုပ်"; "စီးရီး"; "စာရင်း"; "Stdout"; "ဖိုင်"; "အစီအစဉ်"; "ခဏတာ"; "ပုံသေနည်း"; "ဖိုင်တည်နေရာ"]);
  ("ne", ["नयाँ"; "बराबर:"; "="; "≠"; "खुल्ला:गर्नुहोस्:"; "जवाफ:"; "जवाफ:र:"; "जवाफ:र:र:"; "जवाफ:र:र:र:"; "प्रकार"; "nil?"; "_म"; "गर्नुहोस्"; "सकियो"; "छैन:"; "हो:"; "सन्देश:तर्कहरू:"; "विवरण"; "संख्याहरू"; "निर्णय"; "केस:गर्नुहोस्:"; "सिक्नुहोस्:को-अर्थ:"; "तल-लेखिएको"; "रिकर्सिव"; "ब्रेक"; "जारी-राख्नुहोस्"; "अर्को:"; "हैन"; "_र:"; "न-त:"; "वा:"; "वा:वा:"; "कापी"; "+"; "थप्नुहोस्:"; "-"; "घटाउनु:"; "×"; "गुणा:"; "÷"; "द्वारा-विभाजित:"; ">"; "≥"; "<"; "≤"; "मोडुलो:"; "कम"; "उच्च"; "गोलो"; "निरपेक्ष"; "वर्गमूल"; "शक्ति:"; "बिजोर?"; "सम?"; "सकारात्मक?"; "नकारात्मक?"; "कच्चा"; "बीचमा:र:"; "योग्य:"; "योग्यता"; "sin"; "cos"; "tan"; "atan"; "log"; "लम्बाइ"; "बाट:लम्बाई:"; "वरपरका-ठाउँहरू-हटाउनुहोस्"; "चरित्र:"; "खोज्नुहोस्:"; "अन्तिम:"; "बदल्नुहोस्:सँग:"; "विभाजन:"; "अपरकेस"; "लोअरकेस"; "अफसेट:"; "प्रत्यय:"; "विदेशी-नम्बर"; "ह्याश:"; "पात्रहरू"; "समावेश-गर्दछ:"; "तुलना-गर्नुहोस्:"; "एक-वस्तुको-रूपमा"; "चलाउनुहोस्"; "रूपान्तरण:"; "रूपान्तरण:र:"; "रूपान्तरण:र:र:"; "सेट:मान:"; "त्रुटि:"; "त्रुटि-ह्यान्डलिङ:"; "प्रक्रिया"; "जबकि:"; "←"; "~"; ";"; "उपसर्ग:"; "पहिलो-वस्तु-समात्नुहोस्"; "गणना"; "सामेल-हुनुहोस्:"; "अन्तिम-वस्तु-लिनुहोस्"; "स्थिति:"; "मा:"; "?"; "क्रमबद्ध-गर्नुहोस्:"; "राख्नुहोस्:मा:"; "बदल्नुहोस्:लम्बाई:सँग:"; "सूची:"; "प्रत्येक:"; "न्यूनतम"; "अधिकतम"; "अन्तिम"; "दोस्रो-अन्तिम"; "पहिलो"; "भर्नु:वस्तु:"; "द्वारा:"; "प्रविष्टिहरू"; "मानहरू"; "छ:"; "लेख्नुहोस्:"; "रोक"; "नयाँ:"; "पथ"; "पढ्नुहोस्"; "अवस्थित-छ"; "आकार"; "मेटाउन"; "शृङ्खला:"; "तर्क:"; "तर्कहरू"; "सेटिंग:"; "सोध्नु"; "सेटिंग:मान:"; "सफा-मेमोरी"; "मेमोरी:"; "स्वच्छता:"; "प्रणाली-आदेश:"; "इनपुट"; "फ्लश"; "मेमोरी"; "प्रयोग:"; "पासवर्ड-सोध्नुहोस्"; "अन्त्य"; "कुर्नुहोस्:"; "समय"; "दिन"; "दिन:"; "महिना"; "महिना:"; "बर्ष"; "बर्ष:"; "घण्टा"; "घण्टा:"; "मिनेट"; "मिनेट:"; "दोस्रो"; "दोस्रो:"; "हप्ताको-दिन"; "बर्षको-दिन"; "हप्ता"; "क्षेत्र"; "क्षेत्र:"; "वस्तु"; "शून्य"; "हो-वा-होइन"; "हो"; "छैन"; "संख्या"; "पाठ"; "कोड"; "शृङ्खला"; "सूची"; "Stdout"; "फाईल"; "कार्यक्रम"; "क्षण"; "निर्देशनहरू"; "स्थान"]);
  ("nl", ["nieuw"; "gelijk:"; "="; "≠"; "bij:doen:"; "bericht:"; "bericht:argument:"; "bericht:argument:argument:"; "bericht:argument:argument:argument:"; "type"; "Niets?"; "mijzelf"; "doen"; "klaar"; "nee:"; "ja:"; "bericht:argumenten:"; "tekst"; "getal"; "bool"; "geval:doen:"; "leer:betekent:"; "code"; "recursief"; "afbreken"; "doorgaan"; "anders:"; "niet"; "en:"; "noch:"; "of:"; "of:of:"; "kopieer"; "+"; "optellen:"; "-"; "aftrekken:"; "×"; "keer:"; "÷"; "gedeeld:"; ">"; "≥"; "<"; "≤"; "modulo:"; "laag"; "hoog"; "afgerond"; "absoluut"; "vierkantswortel"; "macht:"; "oneven?"; "even?"; "positief?"; "negatief?"; "ruw"; "tussen:en:"; "kwalificering:"; "kwalificering"; "sin"; "cos"; "tan"; "atan"; "log"; "lengte"; "van:lengte:"; "kern"; "letter:"; "zoek:"; "laatste:"; "vervang:door:"; "opsplitsen:"; "hoofdletters"; "kleine-letters"; "overslaan:"; "toevoegen:"; "intergetal"; "kluts:"; "letters"; "bevat:"; "vergelijk:"; "object"; "start"; "toepassen:"; "toepassen:en:"; "toepassen:en:en:"; "gebruik:waarde:"; "fout:"; "afhandelen:"; "procedure"; "zolang:"; "←"; "~"; ";"; "invoegen:"; "lknip"; "aantal"; "samenvoegen:"; "rknip"; "positie:"; "bij:"; "?"; "sorteren:"; "zet:bij:"; "vervang:lengte:door:"; "lijst:"; "elk:"; "minimum"; "maximum"; "laatste"; "voorlaatste"; "eerste"; "vul:met:"; "per:"; "ingangen"; "waarden"; "heeft:"; "schrijf:"; "stop"; "nieuw:"; "pad"; "lezen"; "bestaat"; "grootte"; "verwijderen"; "reeks:"; "argument:"; "aantal-argumenten"; "instelling:"; "vraag"; "instelling:is:"; "vegen"; "geheugen:"; "geheugenbeheer:"; "opdrachtregel:"; "invoer"; "spoelen"; "geheugen"; "gebruik:"; "vraag-wachtwoord"; "einde"; "wacht:"; "tijd"; "dag"; "dag:"; "maand"; "maand:"; "jaar"; "jaar:"; "uur"; "uur:"; "minuut"; "minuut:"; "seconde"; "seconde:"; "weekdag"; "jaardag"; "week"; "zone"; "zone:"; "Object"; "Niets"; "Boolean"; "Ja"; "Nee"; "Getal"; "Tekst"; "Taak"; "Reeks"; "Lijst"; "Uit"; "Bestand"; "Programma"; "Moment"; "Instructie"; "Bestandslocatie"]);
  ("no", ["ny"; "er-lik:"; "="; "≠"; "på:gjøre:"; "svar:"; "svare:og:"; "svare:og:og:"; "svare:og:og:og:"; "type"; "tom?"; "meg-selv"; "gjøre"; "ferdig"; "falsk:"; "ekte:"; "beskjed:argumenter:"; "tekst"; "tall"; "boolean"; "case:gjøre:"; "lære:hjelp:"; "code"; "tilbakevendende"; "stoppe"; "fortsette"; "ellers:"; "ikke"; "og:"; "heller-ikke:"; "eller:"; "enten:eller:"; "kopiere"; "+"; "legg-til:"; "-"; "trekke-fra:"; "×"; "multipliser-med:"; "÷"; "delt-på:"; ">"; "≥"; "<"; "≤"; "modulo:"; "rundet-ned"; "rundet-opp"; "rundet"; "absolutte"; "kvadratrot"; "makt:"; "oddetall?"; "partall?"; "positiv?"; "negativ?"; "rå"; "mellom:og:"; "kvalifisere:"; "kvalifikasjon"; "sin"; "cos"; "tan"; "atan"; "log"; "lengde"; "fra:lengde:"; "fjerne-omkringliggende-områder"; "karakter:"; "finne:"; "siste:"; "erstatt:med:"; "dele:"; "stor-bokstav"; "små-bokstaver"; "offset:"; "tilføy:"; "internasjonalt-tall"; "hash:"; "tegn"; "inneholder:"; "sammenligne:"; "objekt"; "start"; "søke-om:"; "gjelder:og:"; "gjelder:og:og:"; "satt:verdi:"; "feil:"; "å-fange:"; "fremgangsmåte"; "mens:"; "←"; "~"; ";"; "foranstilte:"; "ta-først"; "telle"; "bli-med:"; "ta-sist"; "stilling:"; "på:"; "?"; "sortere:"; "sagt:at:"; "erstatte:lengde:med:"; "liste:"; "hver:"; "minimum"; "maksimum"; "siste"; "nest-sist"; "først"; "fyll:med:"; "av:"; "innganger"; "verdier"; "har:"; "skrive:"; "stop"; "ny:"; "sti"; "lese"; "finnes"; "størrelse"; "slette"; "rad:"; "argument:"; "argumenter"; "omgivelser:"; "spørre"; "innstilling:verdi:"; "ren-minne"; "minnegrense:"; "datamaskinens-minne:"; "kommandolinje:"; "inngang"; "flush"; "minnegrense"; "bruk:"; "spør-passord"; "slutt"; "vente:"; "tid"; "dag"; "dag:"; "måned"; "måned:"; "år"; "år:"; "time"; "time:"; "minutt"; "minutt:"; "sekund"; "sekund:"; "ukedag"; "dag-i-året"; "uke"; "sone"; "sone:"; "Objekt"; "Tom"; "Boolean"; "Ekte"; "Falsk"; "Tall"; "Tekst"; "Oppgave"; "Rad"; "Liste"; "Stdout"; "Fil"; "Program"; "Øyeblikk"; "Instruksjon"; "Filplassering"]);
  ("ny", ["zatsopano"; "ofanana:"; "="; "≠"; "pa:chitani:"; "yankhani:"; "yankho:ndipo:"; "yankho:ndipo:ndi:"; "yankho:ndipo:ndi:ndi:ndi:"; "mtundu"; "nil?"; "inemwini"; "chitani"; "zatheka"; "zabodza:"; "zoona:"; "uthenga:mikangano:"; "mawu"; "chiwerengero"; "boolean"; "mlandu:chitani:"; "dzina:tanthauzo:"; "zolembedwa-pansi"; "mobwerezabwereza"; "kuswa"; "pitilizani"; "china:"; "ayi"; "ndi:"; "_kapena:"; "kapena:"; "kapena:kapena:"; "kukopera"; "+"; "onjezani:"; "-"; "chotsa:"; "×"; "chulukitsani-ndi:"; "÷"; "gawani-ndi:"; ">"; "≥"; "<"; "≤"; "modulo:"; "pansi"; "denga"; "mozungulira"; "mtheradi"; "lalikulu-muzu"; "mphamvu:"; "yosamvetseka?"; "yofanana?"; "zabwino?"; "zoipa?"; "yaiwisi"; "pakati:ndi:"; "khalani-ndi:"; "kuyenerera"; "sin"; "cos"; "tan"; "atan"; "log"; "kutalika"; "kuchokera:kutalika:"; "chotsani-malo-oyandikana-nawo"; "khalidwe:"; "pezani:"; "komaliza:"; "sinthani:ndi:"; "gawa:"; "chapamwamba"; "chikwangwani"; "zolakwika:"; "kuwonjezera:"; "nambala-yapadziko-lonse-lapansi"; "hash:"; "otchulidwa"; "ili-ndi:"; "fanizira:"; "cholinga"; "thamanga"; "kutsatira:"; "kutsatira:ndi:"; "kutsatira:ndi:ndi:"; "dzina:zamkati:"; "cholakwika:"; "gwira:"; "machitidwe"; "pomwe:"; "←"; "~"; ";"; "konzani:"; "gwira-chinthu-choyamba"; "kuwerengetsa"; "lowani:"; "gwira-chinthu-chomaliza"; "malo:"; "pa-malo:"; "?"; "pamzere:"; "ikani:pa:"; "m']malo:kutalika:ndi:"; "map:"; "iliyonse:"; "ochepera"; "pazokwanira"; "komaliza"; "chachiwiri-chomaliza"; "choyamba"; "lembani:__:"; "pa:"; "zolemba"; "mfundo"; "ili:"; "lembani:"; "imani"; "zatsopano:"; "njira"; "werengani"; "lilipo"; "kukula"; "chotsani"; "mndandanda:"; "mkangano:"; "mikangano"; "kapangidwe:"; "funsani"; "kukhazikitsa:mtengo:"; "makumbukidwe-oyera"; "kukumbukira:"; "nkhani:"; "dongosolo:"; "kulowetsa"; "tuluka"; "kukumbukira"; "gwiritsani:"; "funsani-mawu-achinsinsi"; "tsiriza"; "kudikira:"; "nthawi"; "tsiku"; "tsiku:"; "mwezi"; "mwezi:"; "chaka"; "chaka:"; "ola"; "ola:"; "mphindi"; "miniti:"; "chachiwiri"; "chachiwiri:"; "tsiku-la-sabata"; "tsiku-la-chaka"; "sabata"; "nthawi-zone"; "nthawi-zone:"; "Cholinga"; "Nil"; "Boolean"; "Zowona"; "Zabodza"; "Chiwerengero"; "Mawu"; "Code"; "Mndandanda"; "Map"; "Stdout"; "Fayilo"; "Pulogalamu"; "Moment"; "Malangizo"; "Fayilo-malo"]);
  ("or", ["ନୂତନ"; "ସମାନ:"; "="; "≠"; "ଉପରେ:କର:"; "ଉତ୍ତର ଦିଅ:"; "ଉତ୍ତର ଦିଅ:ଏବଂ:"; "ଉତ୍ତର ଦିଅ:ଏବଂ:ଏବଂ:"; "ଉତ୍ତର ଦିଅ:ଏବଂ:ଏବଂ:ଏବଂ:"; "ଟାଇପ୍ କରନ୍ତୁ"; "ନିଲ୍?"; "ମୁଁ ନିଜେ"; "କର"; "ସମାପ୍ତ"; "ଯଦି ମିଥ୍ୟା:"; "ଯଦି ସତ:"; "ବାର୍ତ୍ତା:ଯୁକ୍ତି:"; "ବର୍ଣ୍ଣନା"; "ସଂଖ୍ୟାକୁ ରୂପାନ୍ତର କରନ୍ତୁ"; "ବୁଲିଅନ୍"; "କେସ୍:କର:"; "ଶିଖ:ଅର୍ଥ:"; "କମ୍ପ୍ୟୁଟର"; "ପୁନରାବୃତ୍ତି"; "ବ୍ରେକ୍"; "ଜାରି ରଖ"; "ଅନ୍ୟ:"; "ନୁହେଁ "; "ଏବଂ:"; "ମଧ୍ୟ ନୁହେଁ:"; "କିମ୍ବା:"; "କିମ୍ବା:କିମ୍ବା:"; "କପି କରନ୍ତୁ"; "+"; "ଯୋଗ କରନ୍ତୁ:"; "-"; "ବିତରଣ:"; "×"; "ଗୁଣନ କର:"; "÷"; "ଭାଗ:"; ">"; "≥"; "<"; "≤"; "ମଡୁଲୋ:"; "ଚଟାଣ"; "ଛାତ"; "ଗୋଲାକାର"; "ସଂପୂର୍ଣ୍ଣ"; "ବର୍ଗମୂଳ"; "ଶକ୍ତି:"; "ଅଦ୍ଭୁତ?"; "ଏପରିକି?"; "ସକରାତ୍ମକ?"; "ନକାରାତ୍ମକ?"; "କଞ୍ଚା "; "ମଧ୍ୟରେ:ଏବଂ:"; "ଯୋଗ୍ୟତା:"; "ଯୋଗ୍ୟତା"; "sin"; "cos"; "tan"; "atan"; "log"; "ଲମ୍ବ"; "ଠାରୁ:ଲମ୍ବ:"; "ଆଖପାଖ ସ୍ଥାନଗୁଡିକ ଅପସାରଣ କରନ୍ତୁ"; "ବର୍ଣ୍ଣ:"; "ଖୋଜ:"; "ଶେଷ:"; "ବଦଳାନ୍ତୁ:ସହିତ:"; "ବିଭାଜନ:"; "ବଡ ଅକ୍ଷର"; "ଛୋଟ ଛୋଟ"; "ଅଫସେଟ:"; "ସଫିକ୍ସ:"; "ଆନ୍ତର୍ଜାତୀୟ ସଂଖ୍ୟା"; "ହ୍ୟାସ୍:"; "ବର୍ଣ୍ଣଗୁଡିକ"; "ଧାରଣ କରେ:"; "ତୁଳନା କରନ୍ତୁ:"; "ଏକ ବସ୍ତୁ ଭାବରେ"; "ଚଲାନ୍ତୁ"; "ପ୍ରୟୋଗ କରନ୍ତୁ:"; "ପ୍ରୟୋଗ କରନ୍ତୁ:ଏବଂ:"; "ପ୍ରୟୋଗ କରନ୍ତୁ:ଏବଂ:ଏବଂ:"; "ସେଟ୍:ମୂଲ୍ୟ:"; "ତ୍ରୁଟି:"; "ଧର:"; "ପ୍ରଣାଳୀ"; "ଯେତେବେଳେ:"; "←"; "•"; ";"; "ଉପସର୍ଗ:"; "ଶିଫ୍ଟ"; "ଗଣନା"; "ଯୋଗ ଦିଅନ୍ତୁ:"; "ପପ୍"; "ଅବସ୍ଥାନ:"; "ସ୍ଥାନ:"; "?"; "ସର୍ଟ:"; "ବସ୍ତୁ:ସ୍ଥାନ:"; "ବଦଳାନ୍ତୁ:ଲମ୍ବ:ସହିତ:"; "ମ୍ୟାପିଂ:"; "ପ୍ରତ୍ୟେକ:"; "ସର୍ବନିମ୍ନ"; "ସର୍ବାଧିକ"; "ଲାଞ୍ଜ"; "ଦ୍ୱିତୀୟ ଶେଷ"; "ପ୍ରଥମେ"; "ପୁରଣ:ସହିତ:"; "ପ୍ରତି:"; "ଏଣ୍ଟ୍ରିଗୁଡିକ"; "ମୂଲ୍ୟଗୁଡ଼ିକ"; "ଅଛି:"; "ଲେଖ:"; "ବନ୍ଦ କର"; "_ନୂତନ:"; "ପଥ"; "ଦେଖିବାକୁ"; "ବିଦ୍ୟମାନ ଅଛି "; "ଆକାର"; "ଡିଲିଟ୍ କରନ୍ତୁ "; "ତାଲିକା:"; "ଯୁକ୍ତି:"; "ତର୍କ"; "ସେଟିଂ:"; "ପଚାର "; "ସେଟିଂ:ମୂଲ୍ୟ:"; "ପରିଷ୍କାର ସ୍ମୃତି"; "ସ୍ମୃତି:"; "ପରିଷ୍କାରତା:"; "ସିଷ୍ଟମ୍ କମାଣ୍ଡ୍:"; "ଇନପୁଟ୍"; "ଫ୍ଲାଶ୍"; "ସ୍ମୃତି"; "ବ୍ୟବହାର:"; "ପାସୱାର୍ଡ ମାଗନ୍ତୁ "; "ଶେଷ"; "ଅପେକ୍ଷା କର:"; "ସମୟ"; "ଦିନ"; "ଦିନ:"; "ମାସ"; "ମାସ:"; "ବର୍ଷ"; "ବର୍ଷ:"; "ଘଣ୍ଟା"; "_ଘଣ୍ଟା:"; "ମିନିଟ୍ "; "ମିନିଟ୍:"; "ଦ୍ୱିତୀୟ"; "ଦ୍ୱିତୀୟ:"; "ସାପ୍ତାହିକ ଦିନ"; "ବର୍ଷର ଦିନ"; "ସପ୍ତାହ"; "ଜୋନ୍"; "ଜୋନ୍:"; "ବସ୍ତୁ"; "ନିଲ୍"; "ନିଷ୍ପତ୍ତି"; "ସତ"; "ମିଥ୍ୟା"; "ସଂଖ୍ୟା"; "ପାଠ"; "କୋଡ୍"; "ତାଲିକା"; "ମାନଚିତ୍ର"; "✎"; "ଫାଇଲ୍"; "ପ୍ରୋଗ୍ରାମ୍"; "ମୁହୂର୍ତ୍ତ"; "ନିର୍ଦ୍ଦେଶ"; "ସ୍ଥାନ"]);
  ("pa", ["ਨਵਾਂ"; "ਬਰਾਬਰ:"; "="; "≠"; "ਚਾਲੂ:ਕਰੋ:"; "ਜਵਾਬ:"; "ਜਵਾਬ:ਅਤੇ:"; "ਜਵਾਬ:ਅਤੇ:ਅਤੇ:"; "ਜਵਾਬ:ਅਤੇ:ਅਤੇ:ਅਤੇ:"; "ਕਿਸਮ"; "ਨੀ?"; "ਆਪਣੇ-ਆਪ-ਨੂੰ"; "ਕਰੋ"; "ਕੀਤਾ"; "_ਗਲਤ:"; "ਸੱਚ:"; "ਸੁਨੇਹਾ:ਦਲੀਲ:"; "ਵਰਣਨ"; "ਨੰਬਰ-ਵਿੱਚ-ਬਦਲੋ"; "ਫੈਸਲਾ"; "ਕੇਸ:ਕਰੋ:"; "ਸਿੱਖੋ:ਮਤਲਬ:"; "ਥੱਲੇ-ਲਿਖਿਆ"; "ਲਗਾਤਾਰ"; "ਬਰੇਕ"; "ਜਾਰੀ-ਰੱਖੋ"; "ਹੋਰ:"; "ਨਹੀਂ"; "ਅਤੇ:"; "ਨਾ-ਹੀ:"; "ਜਾਂ:"; "ਜਾਂ:ਜਾਂ:"; "ਕਾੱਪੀ"; "+"; "ਸ਼ਾਮਲ-ਕਰੋ:"; "-"; "ਘਟਾਓ:"; "×"; "ਨਾਲ-ਗੁਣਾ:"; "÷"; "ਇਸ-ਦੁਆਰਾ-ਵੰਡੋ:"; ">"; "≥"; "<"; "≤"; "ਮੋਡੂਲੋ:"; "ਘੱਟ"; "ਵੱਧ"; "ਗੋਲ"; "ਅਸੀਮ"; "ਵਰਗਮੂਲ"; "ਤਾਕਤ:"; "ਅਜੀਬ-ਸੰਖਿਆ?"; "ਸਮ-ਸੰਖਿਆ?"; "ਸਕਾਰਾਤਮਕ?"; "ਨਕਾਰਾਤਮਕ?"; "ਕੱਚਾ"; "ਵਿਚਕਾਰ:ਅਤੇ:"; "ਯੋਗ:"; "ਯੋਗਤਾ"; "sin"; "cos"; "tan"; "atan"; "log"; "ਲੰਬਾਈ"; "ਤੋਂ:ਲੰਬਾਈ:"; "ਆਸ-ਪਾਸ-ਦੀਆਂ-ਥਾਵਾਂ-ਨੂੰ-ਹਟਾਓ"; "ਅੱਖਰ:"; "ਲੱਭੋ:"; "ਆਖਰੀ:"; "ਬਦਲੋ:ਨਾਲ:"; "ਵੰਡ:"; "ਅਪਰਕੇਸ"; "ਛੋਟੇ-ਅੱਖਰ"; "ਆਫਸੈੱਟ:"; "ਪਿਛੇਤਰ:"; "ਅੰਤਰਰਾਸ਼ਟਰੀ-ਨੰਬਰ"; "ਹੈਸ਼:"; "ਅੱਖਰ"; "ਸ਼ਾਮਿਲ-ਹੈ:"; "ਤੁਲਨਾ-ਕਰੋ:"; "ਆਬਜੈਕਟ-ਬਣਾਓ"; "ਰਨ"; "ਲਾਗੂ-ਕਰੋ:"; "ਲਾਗੂ-ਕਰੋ:ਅਤੇ:"; "ਲਾਗੂ-ਕਰੋ:ਅਤੇ:ਅਤੇ:"; "ਸੈੱਟ-ਕਰੋ:ਮੁੱਲ:"; "ਗਲਤੀ:"; "ਫੜੋ:"; "ਵਿਧੀ"; "ਜਦਕਿ:"; "←"; "~"; ";"; "ਅਗੇਤਰ:"; "ਪਹਿਲੀ-ਆਈਟਮ-ਲਵੋ"; "ਗਿਣਤੀ-ਕਰਨ-ਲਈ"; "ਜੁੜੋ:"; "ਆਖਰੀ-ਵਸਤੂ-ਨੂੰ-ਫੜੋ"; "ਸਥਿਤੀ:"; "ਤੇ:"; "?"; "ਲੜੀਬੱਧ:"; "ਪਾ:ਤੇ:"; "ਬਦਲੋ:ਲੰਬਾਈ:ਨਾਲ:"; "ਜੋੜੇ:"; "ਹਰੇਕ:"; "ਘੱਟੋ-ਘੱਟ"; "ਵੱਧ-ਤੋਂ-ਵੱਧ"; "ਆਖਰੀ"; "ਦੂਜਾ-ਆਖਰੀ"; "ਪਹਿਲਾਂ"; "ਭਰੋ:ਨਾਲ:"; "ਨਾਲ:"; "ਇੰਦਰਾਜ਼"; "ਮੁੱਲ"; "ਹੈ:"; "ਲਿਖੋ:"; "ਰੂਕੋ"; "ਨਵਾਂ:"; "ਮਾਰਗ"; "ਪੜ੍ਹੋ"; "ਮੌਜੂਦ-ਹੈ"; "ਅਕਾਰ"; "ਮਿਟਾਓ"; "ਜੋੜ:"; "ਦਲੀਲ:"; "ਬਹਿਸ"; "ਸੈਟਿੰਗ:"; "ਪੁੱਛੋ"; "ਸੈਟਿੰਗ:ਮੁੱਲ:"; "ਸਾਫ਼-ਮੈਮੋਰੀ"; "ਯਾਦਦਾਸ਼ਤ:"; "ਸਾਵਧਾਨ:"; "ਸਿਸਟਮ-ਕਮਾਂਡ:"; "ਇੰਪੁੱਟ"; "ਫਲੱਸ਼"; "ਮੈਮੋਰੀ"; "ਵਰਤੋਂ:"; "ਪਾਸਵਰਡ-ਮੰਗੋ"; "ਅੰਤ"; "ਉਡੀਕ:"; "ਸਮਾਂ"; "ਦਿਨ"; "ਦਿਨ:"; "ਮਹੀਨਾ"; "ਮਹੀਨਾ:"; "ਸਾਲ"; "ਸਾਲ:"; "ਘੰਟਾ"; "ਘੰਟਾ:"; "ਮਿੰਟ"; "ਮਿੰਟ:"; "ਦੂਜਾ"; "ਦੂਜਾ:"; "ਹਫਤੇ-ਦਾ-ਦਿਨ"; "ਸਾਲ-ਦਾ-ਦਿਨ"; "ਹਫ਼ਤਾ"; "ਜ਼ੋਨ"; "ਜ਼ੋਨ:"; "ਆਬਜੈਕਟ"; "ਨੀ"; "ਬੂਲੀਅਨ"; "ਸਚੁ"; "ਗਲਤ"; "ਗਿਣਤੀ"; "ਟੈਕਸਟ"; "ਕੋਡ"; "ਸੂਚੀ"; "ਨਕਸ਼ਾ"; "Stdout"; "ਫਾਈਲ"; "ਪ੍ਰੋਗਰਾਮ"; "ਪਲ"; "ਹਦਾਇਤ"; "ਜਗ੍ਹਾ"]);
  ("pap", ["notisia"; "gusta:"; "="; "≠"; "riba:hasi:"; "kontestá:"; "kontestá:i:"; "kontestá:i:i:"; "kontestá:i:i:i:"; "tipo"; "Nada?"; "mi"; "hasi-esaki"; "yen"; "bal:"; "no:"; "mensahe:anexo:"; "teksto"; "number"; "sí-òf-nò"; "caso:hiba:"; "palabra:interpretashon:"; "kódigo"; "recorido"; "interior"; "kontinuá"; "alternativo:"; "alternativo"; "i:"; "!:"; "òf:"; "ta:òf:"; "copia"; "+"; "otro:"; "-"; "reduci:"; "×"; "multipliká:"; "÷"; "pisin:"; ">"; "≥"; "<"; "≤"; "modulo:"; "rondó-inferior"; "rondó-prinsipio"; "rondó"; "apsolutamente"; "rais-kuadra"; "exponenciación:"; "stranhero?"; "par?"; "positivo?"; "negativo?"; "krio"; "entre:i:"; "cualifica:"; "cualifica"; "sin"; "cos"; "tan"; "atan"; "log"; "largura"; "di:largura:"; "kita-espasio-na-blanku"; "lèter:"; "búskeda:"; "buska-último:"; "remplasá:ku:"; "parti:"; "múskulo"; "nicolas"; "di-e-parti:"; "añadí:"; "number-internashonal"; "inkalkulabel:"; "kantidat-di-literatura"; "kontené:"; "comparación:"; "opheto"; "produccion"; "buta:"; "buta:ku:"; "buta:e:e:"; "variabel:kontenido:"; "eror:"; "maneho-di-engañonan:"; "kondukta"; "durante:"; "←"; "~"; ";"; "promé:"; "desplazar"; "bisa"; "asina:"; "kita"; "lugá:"; "na:"; "?"; "dirigí-na:"; "perde:na:"; "rellenar:numero:con:"; "loke:"; "kada:"; "minimo"; "maximo"; "recent"; "penúltimo"; "inicia"; "rellenar:con:"; "par:"; "entradas"; "elemento"; "contener:"; "skirbi:"; "bula-un-liña"; "notisia:"; "ubicacion-di-archivo"; "lesa"; "regalo"; "midí"; "disparsé"; "nummer:"; "anexo:"; "kantidat-di-anexos"; "formá:"; "puntra"; "formá:balor:"; "limpi"; "memory:"; "pidi:"; "Komando-di-System:"; "entrada"; "enjuagar"; "memory"; "utilidat:"; "colecta-contrast"; "end"; "para:"; "tempu"; "dia"; "dia:"; "luna"; "luna:"; "aña"; "aña:"; "cuant'or"; "cuant'or:"; "into"; "into:"; "dos"; "dos:"; "dia-di-siman"; "dia-di-aña"; "siman"; "karete-pa-hila"; "karete-pa-hila:"; "Opheto"; "Nada"; "Sí-òf-nò"; "Bal"; "No"; "Number"; "Teksto"; "Trabou"; "Sèt"; "Lista"; "Stdout"; "Fiel"; "Programa"; "Tempu"; "Tumando"; "Kaminda-di-archivo"]);
  ("pl", ["nowy"; "równa-się:"; "="; "≠"; "on:do:"; "zareagować:"; "odpowiedz:i:"; "odpowiedz:i:i:"; "odpowiedz:i:i:i:"; "rodzaj"; "zero?"; "siebie"; "robić"; "gotowy"; "nie:"; "tak:"; "wiadomość:argumenty:"; "strunowy"; "numer"; "boolean"; "przypadek:wykonaj:"; "ucz-się:oznacza:"; "code"; "rekurencyjny"; "przerwa"; "kontyntynuj"; "jeszcze:"; "nie"; "i:"; "ani:"; "lub:"; "albo:albo:"; "kopiuj"; "+"; "dodaj:"; "-"; "odejmować:"; "×"; "pomnożyć-przez:"; "÷"; "dzielić-przez:"; ">"; "≥"; "<"; "≤"; "moduł:"; "piętro"; "stropować"; "okrągły"; "absolutny"; "pierwiastek-kwadratowy"; "moc:"; "dziwny?"; "parzysty?"; "pozytywny?"; "negatywny?"; "surowy"; "pomiędzy:i:"; "zakwalifikować:"; "kwalifikacja"; "sin"; "cos"; "tan"; "atan"; "log"; "długość"; "od:długość:"; "usuń-otaczające-spacje"; "postać:"; "odnaleźć:"; "ostatni-ubiegły-zeszły:"; "zamienić:go:"; "rozdzielać:"; "duże-litery"; "małe-litery"; "offsetowy:"; "dodać:"; "numer-międzynarodowy"; "sip-hash:"; "postacie"; "zawiera:"; "porównać:"; "obiekt"; "start"; "zastosować:"; "zastosowanie:i:"; "zastosowanie:i:i:"; "ustalić:wartość:"; "błąd:"; "złapać:"; "procedura"; "podczas:"; "←"; "~"; ";"; "przygotuj:"; "zmiana"; "liczyć"; "przystąp:"; "muzyka-pop"; "pozycja:"; "w:"; "?"; "sortować:"; "że:jest:"; "zamień:długość:na:"; "lista:"; "każdy:"; "minimum"; "maksymalny"; "ostatni-ubiegły-zeszły"; "drugi-od-końca"; "pierwszy"; "napełnij:go:"; "przez:"; "wpisy"; "wartości"; "ma:"; "pisać:"; "zatrzymać"; "nowy:"; "ścieżka"; "czytać"; "istnieje"; "rozmiar"; "usunąć"; "serio:"; "argument:"; "argumenty"; "oprawa:"; "zapytać"; "ustawienie:wartość:"; "czysta-pamięć"; "pamięć:"; "czystość:"; "system:"; "wejście"; "spłukać"; "pamięć"; "posługiwać-się:"; "poproś-o-hasło"; "koniec"; "czekać:"; "czas"; "dzień"; "dzień:"; "miesiąc"; "miesiąc:"; "rok"; "rok:"; "godzina"; "godzina:"; "minuta"; "minuta:"; "druga"; "druga:"; "dzień-powszedni"; "dzień-roku"; "tydzień"; "strefa"; "strefa:"; "Obiekt"; "Zero"; "Boolean"; "Tak"; "Nie"; "Numer"; "Tekst"; "Kod"; "Serio"; "Lista"; "Stdout"; "Plik"; "Program"; "Czas"; "Instrukcja"; "Lokalizacja-pliku"]);
  ("ps", ["نوی"; "مساوي:"; "="; "≠"; "په:ترسره-کول:"; "ځواب:"; "ځواب:او:"; "ځواب:او:او:"; "ځواب:او:او:او:"; "ډول"; "نیل؟"; "زما"; "وکړه"; "شوی"; "نه:"; "هو:"; "پیغام:استدلال:"; "تشریح-کول"; "_شمیره"; "پریکړه"; "پیغام:دنده:"; "زده-کړه:مانا:"; "لیکل-شوی"; "تکرارول"; "ماتول"; "دوام-ورکړئ"; "بل:"; "نه"; "او:"; "نه-او-نه:"; "یا:"; "یا:یا:"; "کاپي"; "+"; "اضافه-کول:"; "-"; "لنډول:"; "×"; "ضرب-د:"; "÷"; "وېشل-د:"; ">"; "≥"; "<"; "≤"; "موډولونه:"; "پوړ"; "چت"; "پړاو"; "مطلق"; "مربع-شکل-ریښی"; "ځواک:"; "عجيبه؟"; "حتی؟"; "مثبت؟"; "منفي؟"; "خام"; "تر-منځ:او:"; "وړتیا:"; "وړتیا"; "sin"; "cos"; "tan"; "atan"; "log"; "اوږدوالی"; "له:اوږدوالي:"; "شاوخوا-ځایونه-لرې-کړئ"; "لوښه:"; "موندل__:"; "اخری:"; "بدلول:سره:"; "وېشل-شوى:"; "غټ"; "ښکته"; "آفسټ:"; "ضمیمه:"; "نړیواله-ګ-ه"; "هیش:"; "لوښه"; "شامل-دي:"; "پرتله-کول:"; "د-یو-اعتراض-په-توګه"; "منډه-وړه"; "تطبیق:"; "غوښتنه-وکړئ:او:"; "غوښتنه-وکړئ:او:او:"; "ټاکل:ارزښت:"; "خطا:"; "نیول:"; "کړنلاره"; "په-داسې-حال-کې:"; "←"; "~"; ";"; "وړاندې-کول:"; "شفټ"; "شمېرنه"; "ګډون-کول:"; "پاپ"; "موقعیت:"; "په:"; "?"; "ترتیب:"; "لګول:په:"; "ځای-په-ځای-کړئ:اوږدوالی:سره:"; "_نقشه:"; "هر-یو:"; "لږترلږه"; "اعظمي"; "اخري"; "دوهم-وروستی"; "لومړی"; "ډکول:سره:"; "لخوا-د:"; "ننوتل"; "ارزښتونه"; "لري:"; "ولیکئ:"; "درېدل"; "نوی:"; "لاره"; "ولولئ"; "شتون-لري"; "کچه"; "ړنګول"; "لیست:"; "دلیل:"; "دلیلونه"; "ترتیب-کول:"; "پوښتنه-وکړه"; "ترتیب-کول:ارزښت:"; "پاک-حافظه"; "حافظه:"; "ځیرکتیا:"; "کمپیوټر:"; "ننوتۍ"; "فلش"; "حافظه"; "استعمال:"; "رمز"; "پای"; "انتظار:"; "وخت"; "ورځ"; "ورځ:"; "میاشت"; "میاشت:"; "کال"; "کال:"; "ساعت"; "ساعت:"; "دقیقه"; "دقیقه:"; "دوهم"; "دوهم:"; "د-اونۍ-ورځ"; "د-کال-ورځ"; "اونۍ"; "زون"; "زون:"; "څيز"; "نیل"; "بولین"; "ریښتیا"; "غلط"; "شمیره"; "متن"; "کوډ"; "لیست"; "نقشه"; "Stdout"; "دوتنه"; "برنامه"; "لمحه"; "لارښوونه"; "ځای"]);
  ("pt", ["novo"; "igual:"; "="; "≠"; "em:fazer:"; "responder:"; "responder:e:"; "responder:e:e:"; "responder:e:e:e:"; "tipo"; "Nulo?"; "eu-mesmo"; "fazer"; "pronto"; "falso:"; "verdadeiro:"; "menssagem:argumentos:"; "string"; "número"; "boleano"; "caso:fazer:"; "aprender:significa:"; "code"; "recursivo"; "parar"; "continua"; "senão:"; "não"; "e-também:"; "nem-um-nem-outro:"; "ou:"; "nem-um-nem-outro:ou:"; "copiar"; "+"; "adicionar:"; "-"; "subtrair:"; "×"; "multiplicar-por:"; "÷"; "dividir-por:"; ">"; "≥"; "<"; "≤"; "módulo:"; "arredondado-para-baixo"; "arredondado-para-cima"; "arredondado"; "absoluto"; "raiz-quadrada"; "potenciação:"; "impar?"; "par?"; "positivo?"; "negativo?"; "cru"; "entre:e:"; "qualificar:"; "qualificação"; "sin"; "cos"; "tan"; "atan"; "log"; "comprimento"; "de:comprimento:"; "retira-os-espaços-ao-redor"; "caracter:"; "encontre:"; "último:"; "substituir:com:"; "dividir:"; "maiúsculas"; "minusculas"; "deslocar:"; "acrescentar:"; "número-internacional"; "cerquilha:"; "caracteres"; "contem:"; "comparar:"; "objeto"; "rodar"; "aplicar:"; "aplicar:e:"; "aplicar:e:e:"; "setar:valor:"; "erro:"; "pegar:"; "procedimento"; "enquanto:"; "←"; "~"; ";"; "preceder:"; "troca"; "conta"; "juntar:"; "pop"; "posição:"; "em:"; "?"; "oedenar:"; "colocar:em:"; "substituir:comprimento:com:"; "mapa:"; "cada-um:"; "minimo"; "máximo"; "último"; "penúltimo"; "primeiro"; "preencha:elementos-com:"; "por:"; "entradas"; "valores"; "tem:"; "escrever:"; "punto"; "novo:"; "caminho"; "ler"; "existe"; "tamanho"; "apagar"; "lista:"; "argumento:"; "argumentos"; "configurar:"; "perguntar"; "configurar:valor:"; "limpa-a-memória"; "memoria:"; "arranjo:"; "comando-do-sistema:"; "entrada"; "descarga"; "memoria"; "usar:"; "peça-uma-senha"; "fim"; "espere:"; "tempo"; "dia"; "dia:"; "mês"; "mês:"; "ano"; "ano:"; "hora"; "hora:"; "minuto"; "minuto:"; "segundo"; "segundo:"; "dia-da-semana"; "dia-do-ano"; "semana"; "zona"; "zona:"; "Objeto"; "Nulo"; "Boleano"; "Verdadeiro"; "Falso"; "Número"; "String"; "Código"; "Listar"; "Mapa"; "Stdout"; "Arquivo"; "Programa"; "Momento"; "Instrução"; "Localização-de-arquivo"]);
  ("pt_br", ["novo"; "igual:"; "="; "≠"; "em:fazer:"; "responder:"; "responder:e:"; "responder:e:e:"; "responder:e:e:e:"; "tipo"; "Nulo?"; "eu-mesmo"; "fazer"; "pronto"; "falso:"; "verdadeiro:"; "menssagem:argumentos:"; "string"; "número"; "boleano"; "caso:fazer:"; "aprender:significa:"; "code"; "recursivo"; "parar"; "continua"; "senão:"; "não"; "e-também:"; "nem-um-nem-outro:"; "ou:"; "nem-um-nem-outro:ou:"; "copiar"; "+"; "adicionar:"; "-"; "subtrair:"; "×"; "multiplicar-por:"; "÷"; "dividir-por:"; ">"; "≥"; "<"; "≤"; "módulo:"; "arredondado-para-baixo"; "arredondado-para-cima"; "arredondado"; "absoluto"; "raiz-quadrada"; "potenciação:"; "impar?"; "par?"; "positivo?"; "negativo?"; "cru"; "entre:e:"; "qualificar:"; "qualificação"; "sin"; "cos"; "tan"; "atan"; "log"; "comprimento"; "de:comprimento:"; "retira-os-espaços-ao-redor"; "caracter:"; "encontre:"; "último:"; "substituir:com:"; "dividir:"; "maiúsculas"; "minusculas"; "deslocar:"; "acrescentar:"; "número-internacional"; "cerquilha:"; "caracteres"; "contem:"; "comparar:"; "objeto"; "começar"; "aplicar:"; "aplicar:e:"; "aplicar:e:e:"; "setar:valor:"; "erro:"; "pegar:"; "procedimento"; "enquanto:"; "←"; "~"; ";"; "preceder:"; "troca"; "conta"; "juntar:"; "pop"; "posição:"; "em:"; "?"; "oedenar:"; "colocar:em:"; "substituir:comprimento:com:"; "mapa:"; "cada-um:"; "minimo"; "máximo"; "último"; "penúltimo"; "primeiro"; "preencha:elementos-com:"; "por:"; "entradas"; "valores"; "tem:"; "escrever:"; "punto"; "novo:"; "caminho"; "ler"; "existe"; "tamanho"; "apagar"; "lista:"; "argumento:"; "argumentos"; "configurar:"; "perguntar"; "configurar:valor:"; "limpa-a-memória"; "memoria:"; "arranjo:"; "comando-do-sistema:"; "entrada"; "descarga"; "memoria"; "usar:"; "peça-uma-senha"; "fim"; "espere:"; "tempo"; "dia"; "dia:"; "mês"; "mês:"; "ano"; "ano:"; "hora"; "hora:"; "minuto"; "minuto:"; "segundo"; "segundo:"; "dia-da-semana"; "dia-do-ano"; "semana"; "zona"; "zona:"; "Objeto"; "Nulo"; "Boleano"; "Verdadeiro"; "Falso"; "Número"; "String"; "Código"; "Listar"; "Mapa"; "Stdout"; "Arquivo"; "Programa"; "Momento"; "Instrução"; "Localização-de-arquivo"]);
  ("ro", ["crea"; "egal:"; "="; "≠"; "la:execută:"; "răspunde:"; "răspunde:şi:"; "răspunde:şi:şi:"; "răspunde:şi:şi:şi:"; "tip"; "Nul?"; "sine"; "fă"; "gata"; "fals:"; "adevărat:"; "mesaj:argumente:"; "string"; "număr"; "boolean"; "în-caz-că:fă:"; "învaţă:înseamnă:"; "code"; "recursiv"; "opreşte"; "continuă"; "altfel:"; "nu"; "şi:"; "nici:"; "sau:"; "sau:sau:"; "copiază"; "+"; "adaugă:"; "-"; "scade:"; "×"; "multiplică-cu:"; "÷"; "împarte-la:"; ">"; "≥"; "<"; "≤"; "modul:"; "floor"; "ceil"; "rounjeşte"; "absolut"; "radical"; "putere:"; "impar?"; "par?"; "pozitiv?"; "negativ?"; "dur"; "între:şi:"; "califică:"; "calificare"; "sin"; "cos"; "tan"; "atan"; "log"; "lungime"; "de-la:lungime:"; "şterge-spaţiile-din-jur"; "caracter:"; "caută:"; "ultimul:"; "înlocuieşte:cu:"; "împarte:"; "majuscule"; "litere-mici"; "ofset:"; "adaugă-la-sfârşit:"; "număr-internațional"; "hash:"; "caractere"; "conţine:"; "compară:"; "obiect"; "execută"; "aplică:"; "aplică:şi:"; "aplică:şi:şi:"; "set:valoare:"; "eroare:"; "prinde:"; "procedură"; "cât-timp:"; "←"; "~"; ";"; "adaugă-la-început:"; "mută"; "numără"; "alătură:"; "scoate"; "poziţie:"; "la:"; "?"; "sortează:"; "pune:la:"; "înlocuieşte:lungime:cu:"; "map:"; "fiecare:"; "minimum"; "maximum"; "ultim"; "penultim"; "prim"; "umple:cu:"; "cu:"; "intrări"; "valori"; "are:"; "scrie:"; "stop"; "crea:"; "cale"; "citeşte"; "există"; "dimensiune"; "şterge"; "listă:"; "argument:"; "argumente"; "setare:"; "întreabă"; "setare:valoare:"; "curăţă-memoria"; "memorie:"; "ordine:"; "linie-de-comandă:"; "intrare"; "curăţă"; "memorie"; "utilizare:"; "cere-o-parolă"; "final"; "aşteaptă:"; "timp"; "zi"; "zi:"; "lună"; "lună:"; "an"; "an:"; "oră"; "oră:"; "minut"; "minut:"; "secundă"; "secundă:"; "zi-a-săptămânii"; "zi-din-an"; "săptămână"; "zonă"; "zonă:"; "Obiect"; "Nul"; "Boolean"; "Adevărat"; "Fals"; "Număr"; "String"; "Cod"; "Listă"; "Hartă"; "Stdout"; "Fişier"; "Program"; "Moment"; "Instrucțiuni"; "Locația-fișierului"]);
  ("ru", ["новый"; "равно:"; "="; "≠"; "в:сделать:"; "ответить:"; "ответить:и:"; "ответить:и:и:"; "ответить:и:и:и:"; "тип"; "пустой?"; "себя"; "сделать"; "выполнить"; "ложь:"; "истина:"; "сообщение:аргументы:"; "к-тексту"; "к-числу"; "к-логическому-значению"; "случай:сделать:"; "узнать:означает:"; "код"; "рекурсия"; "разрыв"; "продолжить"; "иначе:"; "не"; "и:"; "ни:"; "или:"; "либо:или:"; "скопировать"; "+"; "добавить:"; "-"; "вычесть:"; "×"; "умножить-на:"; "÷"; "разделить-на:"; ">"; "≥"; "<"; "≤"; "модуль:"; "округлить-в-меньше"; "округлить-в-больше"; "округлить"; "абсолютный"; "квадратный-корень"; "в-степени:"; "нечетное?"; "четное?"; "положительный?"; "отрицательный?"; "преобразовать"; "между:и:"; "квалификация:"; "квалифицировать"; "sin"; "cos"; "tan"; "atan"; "log"; "длина"; "от:длина:"; "удалить-окружающие-пробелы"; "набор-символов:"; "найти:"; "последний-индекс:"; "заменить:на:"; "разделить:"; "верхний-регистр"; "нижний-регистр"; "сместить:"; "добавить-в-конец:"; "к-международному-номеру"; "хэш:"; "символы"; "содержит:"; "сравнить:"; "объект"; "запуск"; "применить:"; "применить:и:"; "применить:и:и:"; "задать:значение:"; "ошибка:"; "впоймать:"; "процедура"; "пока:"; "←"; "~"; ";"; "добавить-в-начало:"; "сдвиг"; "счетчик"; "присоединить:"; "удалить-последний-элемент"; "позиция:"; "в:"; "?"; "сортировать:"; "разместить:в:"; "заменить:длина:на:"; "карта:"; "каждый:"; "минимум"; "максимум"; "последний"; "предпоследний"; "первый"; "заполнить:буквой:"; "на:"; "ключи"; "значение"; "имеет:"; "написать:"; "стоп"; "новый-набор:"; "путь"; "прочитать"; "существует"; "размер"; "удалить"; "список:"; "аргумент:"; "количество-аргументов"; "настройка:"; "поле-для-ввода"; "настройка:значение:"; "очистить-память"; "лимит-памяти:"; "выбрать-управление-памятью:"; "Сістэмная-каманда:"; "ввод"; "сбросить-буфер-вывода"; "память"; "импортировать:"; "поле-для-пароля"; "конец"; "ожидание:"; "время"; "день"; "день:"; "месяц"; "месяц:"; "год"; "год:"; "час"; "час:"; "минут"; "минут:"; "секунд"; "секунд:"; "рабочий-день"; "день-в-году"; "неделя"; "часовая-зона"; "часовая-зона:"; "Объект"; "Пустой"; "Логический"; "Истина"; "Ложь"; "Число"; "текст"; "Код"; "Список"; "Карта"; "Stdout"; "Файл"; "Программа"; "Момент"; "Выполнить-команду"; "Расположение-файла"]);
  ("rw", ["gishya"; "bingana:"; "="; "≠"; "kuri:kora:"; "subiza:"; "subiza:na:"; "subiza:na:na:"; "subiza:na:na:na:"; "ubwoko"; "ntacyo?"; "njye-ubwanjye"; "kora"; "byakozwe"; "oya:"; "yego:"; "ubutumwa:impaka:"; "inyandiko"; "nimero"; "yego-oya"; "urubanza:kora:"; "kwiga:bisobanura:"; "byanditswe"; "Gusubiramo"; "kuruhuka"; "komeza"; "ikindi:"; "ntabwo"; "na:"; "na-byo:"; "cyangwa:"; "haba:cyangwa:"; "kopi"; "+"; "ongeraho:"; "-"; "gukuramo:"; "×"; "kugwiza-na:"; "÷"; "kugabana-na:"; ">"; "≥"; "<"; "≤"; "modulo:"; "hasi"; "hejuru"; "kuzenguruka"; "byuzuye"; "imizi-kare"; "imbaraga:"; "udasanzwe?"; "ndetse?"; "ni-byiza?"; "nabi?"; "mbisi"; "hagati:na:"; "bujuje-ibisabwa:"; "impamyabumenyi"; "sin"; "cos"; "tan"; "atan"; "log"; "uburebure"; "kuva:uburebure:"; "kuraho-ibibanza-bikikije"; "imiterere:"; "shaka:"; "nyuma:"; "gusimbuza:hamwe-na:"; "gutandukana:"; "inyuguti-nkuru"; "inyuguti-nto"; "offset:"; "umugereka:"; "nimero-mpuzamahanga"; "hash:"; "inyuguti"; "ikubiyemo:"; "gereranya:"; "intego"; "kwiruka"; "gusaba:"; "gusaba:na:"; "gusaba:na:na:"; "gushiraho:agaciro:"; "ikosa:"; "gufata:"; "icyemezo"; "mugihe:"; "←"; "~"; ";"; "kwitegura:"; "fata-iyambere"; "kubara"; "injira:"; "fata-icya-nyuma"; "umwanya:"; "kuri:"; "?"; "kuri-gahunda:"; "shyira:kuri:"; "gusimbuza:uburebure:hamwe-na:"; "ikarita:"; "buri:"; "nto"; "ntarengwa"; "iheruka"; "icya-kabiri-cyanyuma"; "mbere"; "kuzuza:hamwe-na:"; "ku:"; "ibyanditswe"; "indangagaciro"; "ifite:"; "andika:"; "hagarara"; "gishya:"; "inzira"; "soma"; "ibaho"; "ingano"; "gusiba"; "urutonde:"; "impaka:"; "impaka"; "ibidukikije:"; "baza"; "ibidukikije:agaciro:"; "kwibuka-neza"; "kwibuka:"; "kugira-isuku:"; "sisitemu:"; "iyinjiza"; "flush"; "kwibuka"; "gukoresha:"; "ask-password"; "iherezo"; "rindira:"; "igihe"; "umunsi"; "umunsi:"; "ukwezi"; "ukwezi:"; "umwaka"; "umwaka:"; "isaha"; "isaha:"; "umunota"; "umunota:"; "kabiri"; "kabiri:"; "umunsi-w'icyumweru"; "umunsi-w']umwaka"; "icyumweru"; "akarere"; "zone:"; "Intego"; "Ntacyo"; "Yego-Oya"; "Yego"; "Oya"; "Umubare"; "Inyandiko"; "Akazi"; "Urutonde"; "Ikarita"; "Stdout"; "Idosiye"; "Gahunda"; "Akanya"; "Amabwiriza"; "Ahantu-dosiye"]);
  ("sd", ["ئون"; "رابرآھي:"; "="; "≠"; "وٽ:ڪر:"; "پيغام:"; "پيغام:۽:"; "پيغام:۽:۽:"; "پيغام:۽:۽:۽:"; "سم"; "_يل؟"; "نھنجو"; "ريو"; "يويو"; "لط:"; "_چو:"; "يغام:دليل:"; "وضاحت"; "يرلگول"; "َيربِينير"; "يس:ڪري:"; "کو:مطلب:"; "code"; "ٻيهر"; "قفو"; "اريرکو"; "يو:"; "ه?"; "پڻ:"; "نه:"; "يا:"; "هڪ:ياٻيو:"; "اپي"; "+"; "املڪيو:"; "-"; "ٽ:"; "×"; "ربسان:"; "÷"; "ريعيورهايو:"; ">"; "≥"; "<"; "≤"; "اڊلولو:"; "رش"; "_ڪ"; "ول"; "طلق"; "ورسروٽ"; "اقت:"; "يجوڙ؟"; "وڙي؟"; "ثبت؟"; "نفي؟"; "ام"; "چ:۽:"; "ابليت:"; "ابليت"; "sin"; "cos"; "tan"; "atan"; "log"; "يگهه"; "ان:ڊيگهه:"; "رپاسيواريجڳههختمڪريو"; "ردار:"; "وليو:"; "خري:"; "ٽايو:سان:"; "قسيم:"; "ڏااکر"; "ننڍو-اکر"; "فسيٽ:"; "املڪريو:"; "ينالاقوامينمبر"; "اش:"; "کرن"; "املآھي:"; "وازنہڪريو:"; "جيئن_ھڪڙي_شئي"; "لندا"; "اڳو-ڪريو:"; "اڳو-ڪريو:۽:"; "لاڳو-ڪريو:۽:۽:"; "يٽ:قدر:"; "لطي:"; "ڪڙ:"; "طريقو"; "ڏهنته:"; "←"; "~"; ";"; "يشڪش:"; "فٽ"; "ڻپ"; "املٿيو:"; "اپ"; "وزيشن:"; "ي:"; "?"; "سم:"; "کيل:تي:"; "ٽائي:ڊگھائي:سان:"; "قشو:"; "_ر:"; "ھٽ"; "مٿي"; "خري"; "يڪنڊآخري"; "هريون"; "ريو:سان:"; "اران:"; "اخلائون"; "در"; "ھي:"; "کو:"; "سٽاپ"; "ئون:"; "ستو"; "ڙهو"; "وجودآھي"; "ائيز"; "ارجڪريو"; "هرست:"; "ليل:"; "ليل"; "يٽنگ:"; "ڇو"; "يٽنگ:ويليو:"; "افيادگيري"; "يموري:"; "وشخبري:"; "سسٽم:"; "نپٽ"; "lلش"; "يموري"; "ستعمال:"; "پاسورڊ"; "تم"; "نتظار:"; "قت"; "ينهن"; "ينهن:"; "هينو"; "هينو:"; "ال"; "ال:"; "لاڪ"; "لاڪ:"; "نٽ"; "نٽ:"; "يڪنڊ"; "يڪنڊ:"; "فتيوارڏينهن"; "الجوڏينهن"; "فتو"; "لائقو"; "لائقو:"; "قصد"; "يل"; "ولين"; "چو"; "وڙو"; "مبر"; "متن"; "وڊ"; "سٽ"; "قشو"; "Stdout"; "ائيل"; "روگرام"; "محو"; "هدايتون"; "جڳھ"]);
  ("si", ["නව"; "සමාන:"; "="; "≠"; "මත:කරන්න:"; "ප්‍රතිචාර දක්වන්න:"; "ප්‍රතිචාර දක්වන්න:සහ:"; "ප්‍රතිචාර දක්වන්න:සහ:සහ:"; "ප්‍රතිචාර දක්වන්න:සහ:සහ:සහ:"; "වර්ගය"; "නිල්?"; "මා"; "කරන්න"; "ඉවරයි"; "නැත:"; "ඔව්:"; "පණිවිඩය:තර්ක:"; "විස්තර"; "ගණනය කරන්න"; "තීරණ"; "නඩුව:කරන්න:"; "පණිවුඩය:අර්ථය:"; "ලියා ඇත"; "පුනරාවර්තන"; "කඩන්න"; "දිගටම"; "වෙනත්:"; "නොවේ"; "සහ:"; "ද නැත:"; "හෝ:"; "එක්කෝ:හෝ:"; "පිටපත"; "+"; "එකතු කරන්න:"; "-"; "අඩු කරන්න:"; "×"; "ගුණ කිරීමෙන්:"; "÷"; "බෙදන්න:"; ">"; "≥"; "<"; "≤"; "මොඩියුලෝ:"; "මහල"; "සිවිලිම"; "වටය"; "නිරපේක්ෂ"; "වර්ගමුලය"; "බලය:"; "අමුතුද?"; "පවා?"; "ධනාත්මක?"; "සෘණ?"; "අමු"; "අතර:සහ:"; "සුදුසුකම්:"; "සුදුසුකම්"; "sin"; "cos"; "tan"; "atan"; "log"; "දිග"; "සිට:දිග:"; "අවට අවකාශය ඉවත් කරන්න"; "ස්වභාවය:"; "සොයන්න:"; "අවසන්:"; "ආදේශ කරන්න:සමග:"; "බෙදුණු:"; "ලොකු අකුර"; "සිම්පල්"; "ඕෆ්සෙට්:"; "උපසර්ගය:"; "ජාත්‍යන්තර අංකය"; "හෑෂ්:"; "අක්ෂර"; "අඩංගු වේ:"; "සංසන්දනය කරන්න:"; "වස්තුවක් ලෙස"; "දුවන්න"; "අයදුම් කරන්න:"; "අයදුම් කරන්න:සහ:"; "අයදුම් කරන්න:සහ:සහ:"; "නාමය:අන්තර්ගතය:"; "දෝෂය:"; "ඇල්ලීම:"; "පටිපාටිය"; "අතර:"; "←"; "•"; ";"; "ඉදිරියෙන්:"; "පළමුවැන්න අල්ලා ගන්න"; "ගණන් කරන්න"; "මැලියම්:"; "අන්තිම එක ගන්න"; "පිහිටීම:"; "හිදී:"; "?"; "වර්ග කිරීම:"; "වස්තුව:ස්ථානය:"; "ආදේශ කරන්න:දිග:සමඟ:"; "සිතියම:"; "සෑම:"; "අවම"; "උපරිම"; "අවසන්"; "දෙවන අන්තිම"; "පළමු"; "පුරවන්න:සමග:"; "විසින්:"; "ඇතුළත් කිරීම්"; "අගයන්"; "ඇති:"; "ලියන්න:"; "නවත්වන්න"; "නව:"; "මාර්ගය"; "කියවන්න"; "පවතී"; "ප්‍රමාණය"; "මකන්න"; "අනුපිළිවෙල සාදන්න:"; "තර්කය:"; "තර්ක"; "සැකසුම:"; "අහන්න"; "සැකසුම:අගය:"; "පිරිසිදු මතකය"; "මතකය:"; "පිළිවෙලට:"; "පද්ධතියක්:"; "ආදානය"; "ෆ්ලෂ්"; "මතකය"; "භාවිත:"; "මුරපදය අසන්න"; "අවසානය"; "රැඳී සිටින්න:"; "කාලය"; "දිනය"; "දිනය:"; "මස"; "මස:"; "අවුරුදු"; "අවුරුදු:"; "පැය"; "පැය:"; "විනාඩිය"; "මිනිත්තුව:"; "දෙවැනි"; "දෙවැනි:"; "සතියේ දිනය"; "වසරේ දිනය"; "සතිය"; "කලාපය"; "කලාපය:"; "වස්තුව"; "නිල්"; "ඔව් නෑ"; "ඔව්"; "නැත"; "අංකය"; "පෙළ"; "කාර්යය"; "ලැයිස්තුව"; "සිතියම"; "✎"; "ගොනුව"; "වැඩසටහන"; "මොහොත"; "උපදෙස්"; "ස්ථානය"]);
  ("sk", ["nový"; "sa-rovná:"; "="; "≠"; "on:postup:"; "reagovať:"; "reagovať:a:"; "odpovedáme:i:i:"; "odpovedáme:i:i:i:"; "typ"; "nil?"; "ja-sám"; "robiť"; "hotový"; "false:"; "true:"; "správa:argumenty:"; "text"; "číslo"; "boolean"; "prípad:postup:"; "učí:prostriedky:"; "kód"; "rekurzivno"; "prestávka"; "ďalej"; "else:"; "nie"; "a:"; "z-toho:"; "alebo:"; "buď:alebo:"; "kópie"; "+"; "pridať:"; "-"; "odčítanie:"; "×"; "násobiť:"; "÷"; "delenie:"; ">"; "≥"; "<"; "≤"; "modulo:"; "zaokrúhlené-nadol"; "zaokrúhlené-nahor"; "okrúhly"; "absolútny"; "odmocnina"; "moc:"; "nepárne?"; "párne?"; "pozitívne?"; "negatívne?"; "surový"; "medzi:a:"; "kvalifikovať:"; "kvalifikácia"; "sin"; "cos"; "tan"; "atan"; "log"; "dĺžka"; "z:dĺžka:"; "odstrániť-okolitý-priestor"; "znak:"; "nájsť:"; "trvať:"; "nahraď:s:"; "rozdeliť:"; "veľké-písmená"; "malými-písmenami"; "preskočiť:"; "prípona:"; "medzinárodné-číslo"; "hash:"; "znaky"; "obsahuje:"; "porovnať:"; "objekt"; "beh"; "platí:"; "platí:a:"; "platí:a:i:"; "nastaviť:hodnotu:"; "chyba:"; "chytiť:"; "procedúra"; "zatiaľ-čo:"; "←"; "~"; ";"; "predpona:"; "vezmite-prvý"; "počítať"; "pripojiť:"; "vezmite-posledný"; "pozície:"; "na-adrese:"; "?"; "radiť:"; "povedané:na-adrese:"; "vymeniť:dĺžka:s:"; "mapa:"; "každý:"; "minimum"; "maximum"; "posledná"; "predposledný"; "najprv"; "vyplň:s:"; "od:"; "zápisy"; "hodnoty"; "má:"; "píšu:"; "zastávka"; "nový:"; "cesta"; "čítať"; "existuje"; "veľkosť"; "vymazať"; "zoznam:"; "argument:"; "argumenty"; "nastavenia:"; "opýtať-sa"; "nastavenie:hodnota:"; "clean-pamäť"; "pamäť:"; "poriadok:"; "systémový-príkaz:"; "vstup"; "spláchnuť"; "pamäť"; "použitia:"; "opýtať-sa-heslo"; "koniec"; "počkať:"; "čas"; "deň"; "deň:"; "mesiac"; "mesiac:"; "rok"; "rok:"; "hodina"; "hodina:"; "minúta"; "minúta:"; "druhý"; "druhá:"; "všedný-deň"; "deň-v-roku"; "týždeň"; "zóna"; "zone:"; "Objekt"; "Nula"; "Boolean"; "Pravdivý"; "Nepravdivý"; "Číslo"; "Text"; "Úloha"; "Zoznam"; "Mapa"; "Stdout"; "Súbor"; "Program"; "Moment"; "Pokyn"; "Umiestnenie-súboru"]);
  ("sl", ["novo"; "enako:"; "="; "≠"; "on:do:"; "odgovori:"; "odgovorite:in:"; "odgovorite:in:in:"; "odgovorite:in:in:in:"; "tip"; "nil?"; "sebe"; "stori"; "končano"; "lažno:"; "prav:"; "sporočilo:argumenti:"; "besedilo"; "številka"; "boolean"; "primer:naredite:"; "učiti:pomeni:"; "code"; "recursive"; "zlom"; "nadaljuj"; "drugo:"; "ne"; "in:"; "niti:"; "ali:"; "ali:ali:"; "kopirati"; "+"; "dodaj:"; "-"; "odšteti:"; "×"; "pomnoži-z:"; "÷"; "deli-z:"; ">"; "≥"; "<"; "≤"; "modul:"; "nadstropje"; "strop"; "okroglo"; "absolutno"; "kvadratni-koren"; "moč:"; "liho?"; "sodo?"; "pozitivno?"; "negativno?"; "surov"; "med:in:"; "kvalificirati:"; "kvalifikacija"; "sin"; "cos"; "tan"; "atan"; "log"; "dolžino"; "od:dolžina:"; "odstranite-okoliške-prostore"; "lik:"; "najti:"; "zadnji:"; "nadomestiti:z:"; "razcep:"; "velike-črke"; "mala-črka"; "kompenzacija:"; "pripona:"; "mednarodna-številka"; "hash:"; "znakov"; "vsebuje:"; "primerjaj:"; "predmet"; "teči"; "velja:"; "velja:in:"; "uporabiti:in:in:"; "set:vrednost:"; "napaka:"; "ulov:"; "postopek"; "medtem:"; "←"; "~"; ";"; "predpono:"; "premik"; "šteti"; "pridruži-se:"; "pop"; "položaj:"; "ob:"; "?"; "razvrsti:"; "dal:na:"; "nadomestite:dolžina:z:"; "zemljevid:"; "vsak:"; "najmanj"; "največ"; "zadnji"; "drugi-zadnji"; "najprej"; "napolni:z:"; "avtor:"; "vnosi"; "vrednote"; "ima:"; "napišite:"; "ustavi-se"; "novo:"; "pot"; "prebrati"; "obstaja"; "velikost"; "izbrisati"; "seznam:"; "prepir:"; "argumenti"; "nastavitev:"; "vprašati"; "nastavitev:vrednost:"; "čist-spomin"; "spomin:"; "urejenost:"; "sistem:"; "vhod"; "zardevati"; "spomin"; "uporaba:"; "vprašajte-geslo"; "konec"; "počakajte:"; "čas"; "dan"; "dan:"; "mesec"; "mesec:"; "leto"; "leto:"; "uro"; "ura:"; "minuto"; "minuta:"; "drugič"; "drugič:"; "delovni-dan"; "dan-v-letu"; "teden"; "cono"; "cona:"; "Predmet"; "Nil"; "Boolov"; "Prav"; "Lažno"; "Številka"; "Besedilo"; "Koda"; "Seznam"; "Zemljevid"; "Stdout"; "Mapa"; "Program"; "Trenutek"; "Navodila"; "Lokacija-datoteke"]);
  ("sm", ["fou"; "tutusa:"; "="; "≠"; "luga:fai:"; "tali-atu:"; "tali-atu:ma:"; "tali:ma:ma:"; "tali:ma:ma:ma:"; "ituaiga"; "nil?"; "aʻu-lava-ia"; "fai"; "faia"; "sese:"; "moni:"; "feʻau:finauga:"; "manoa"; "numera"; "pupu"; "mataupu:fai:"; "aʻoaʻo:o-lona-uiga:"; "tusia"; "recursive"; "malologa"; "faaauau"; "a-leai:"; "leai"; "ma:"; "pe:"; "poʻo:"; "pe:pe:"; "kopi"; "+"; "faʻaopoopo:"; "-"; "toesea:"; "×"; "faʻateleina-e:"; "÷"; "vaevaeina-e:"; ">"; "≥"; "<"; "≤"; "modulo:"; "fola"; "sela"; "lapotopoto"; "saʻo"; "fua-faʻamau"; "mana:"; "ese?"; "tutusa?"; "lelei?"; "leaga?"; "lanu"; "i-le-va-o:ma:"; "agavaa:"; "agavaa"; "sin"; "cos"; "tan"; "atan"; "log"; "uumi"; "mai:uumi:"; "aveese-nofoaga-lata-ane"; "amio:"; "maua:"; "mulimuli:"; "sui:i:"; "vaevaeina:"; "mataitusi-tetele"; "mataitusi-laiti"; "faʻasalaga:"; "suffix:"; "numera-faavaomalo"; "mea-leaga:"; "mataitusi"; "aofia-ai:"; "faatusatusa:"; "sini"; "tamoe"; "faʻaaoga:"; "faʻaaoga:ma:"; "faʻaaoga:ma:ma:"; "seti:taua:"; "tuusaunoaga:"; "puʻe:"; "faiga"; "ao:"; "←"; "~"; ";"; "prefix:"; "sui"; "E-fia?"; "auai:"; "pop"; "tulaga:"; "i:"; "?"; "fa'atonuga:"; "tuʻu:i:"; "sui:umi:faʻatasi:"; "faʻafanua:"; "taʻitasi:"; "aupito-maualalo"; "maualuga"; "mulimuli"; "lona-lua-mulimuli"; "tulaga-tasi"; "faʻatumu:_i:"; "e-ala-i:"; "faʻamaumauga"; "taua"; "i-ai:"; "tusi:"; "taofi"; "fou:"; "ala"; "faitau"; "o-loʻo-i-ai"; "tele"; "tape"; "lisi:"; "finauga:"; "finauga"; "siosiomaga:"; "fesili"; "siosiomaga:taua:"; "mama-mama"; "manatua:"; "mama:"; "atigi:"; "fesoʻotaʻiga"; "fufulu"; "manatua"; "faʻaoga:"; "fesili-password"; "iuga"; "faatali:"; "taimi"; "aso"; "aso:"; "masina"; "masina:"; "tausaga"; "tausaga:"; "itula"; "itula:"; "minute"; "minute:"; "tulaga-lua"; "tulaga-lua:"; "aso-o-le-vaiaso"; "aso-o-le-tausaga"; "vaiaso"; "sone"; "sone:"; "Sini"; "Nil"; "Faʻamalie"; "Faamaoni"; "Sese"; "Numera"; "Faʻailoga"; "Code"; "Lisi"; "Faʻafanua"; "Stdout"; "File"; "Polokalama"; "Taimi"; "Faatonuga"; "Nofoaga-faila"]);
  ("sn", ["nyowani"; "zvakaenzana:"; "="; "≠"; "pa:ita:"; "pindura:"; "pindura:uye:"; "pindura:uye:uye:"; "pindura:uye:uye:uye:uye:"; "mhando"; "hapana?"; "ini"; "ita"; "zvaitwa"; "aihwa:"; "ehe:"; "meseji:nharo:"; "text"; "nhamba"; "boolean"; "nyaya:ita:"; "dzidza:zvinoreva:"; "zvakanyorwa-pasi"; "kudzokorora"; "kutyora"; "enderera"; "zvimwe:"; "kwete"; "uye:"; "uyewo-kwete:"; "kana:"; "kana:kana:"; "kopi"; "+"; "wedzera:"; "-"; "bvisa:"; "×"; "wedzera-ne:"; "÷"; "kupatsanura-na:"; ">"; "≥"; "<"; "≤"; "modulo:"; "pasi"; "kumusoro"; "kutenderera"; "mhedziso"; "mraba-mativi"; "simba:"; "kusaenzana?"; "kuenzana?"; "zvakanaka?"; "zvakaipa?"; "mbishi"; "pakati:uye:"; "kukodzera:"; "kukodzera"; "sin"; "cos"; "tan"; "atan"; "log"; "kureba"; "kubva:kureba:"; "bvisa-nzvimbo-dzakakomberedza"; "hunhu:"; "tsvaga:"; "pekupedzisira:"; "kutsiva:na:"; "kupatsanura:"; "chikwama"; "rakadzika"; "kukanganisa:"; "kumashure:"; "nhamba-yenyika"; "hash:"; "mavara"; "rine:"; "enzanisa:"; "chinhu"; "mhanyisa"; "shandisa:"; "shandisa:uye:"; "shandisa:uye:uye:"; "set:kukosha:"; "_kukanganisa:"; "kubata:"; "maitiro"; "ne:"; "←"; "~"; ";"; "pamberi:"; "kubata-chekutanga"; "kuverenga"; "joinha:"; "kubata-yekupedzisira"; "chinzvimbo:"; "pa:"; "?"; "kuisa-muhurongwa:"; "isa:pa:"; "kutsiva:kureba:na:"; "mepu:"; "chimwe-nechimwe:"; "mashoma"; "kukwana"; "pekupedzisira"; "yechipiri-yekupedzisira"; "chekutanga"; "zadza:na:"; "na:"; "zvemukati"; "tsika"; "ane:"; "nyora:"; "mira"; "nyowani:"; "gwara"; "verenga"; "iripo"; "saizi"; "bvisa"; "rondedzero:"; "gakava:"; "kupokana"; "kurongedza:"; "bvunza"; "kuisirwa:kukosha:"; "kuchena-kwendangariro"; "ndangariro:"; "nhau:"; "kombiyuta:"; "kupinza"; "svina"; "ndangariro"; "zvishandiso:"; "bvunza-password"; "magumo"; "mirira:"; "nguva"; "zuva"; "zuva:"; "mwedzi"; "mwedzi:"; "gore"; "gore:"; "awa"; "awa:"; "mineti"; "mineti:"; "chepiri"; "chepiri:"; "zuva-revhiki"; "zuva-regore"; "vhiki"; "zone"; "zone:"; "Chinhu"; "Hapana"; "Chisarudzo"; "Ehe"; "Aihwa"; "Nhamba"; "Text"; "Code"; "Rondedzero"; "Mepu"; "Stdout"; "Faira"; "Chirongwa"; "Moment"; "Mirayiridzo"; "File-nzvimbo"]);
  ("so", ["cusub"; "siman:"; "="; "≠"; "hadii:tahay:"; "ka-jawaab:"; "jawaab:iyo:"; "jawaab:iyo:iyo:"; "jawaab:iyo:iyo:iyo:"; "nooca"; "waxba?"; "naftayda"; "samee"; "sameeyay"; "maya:"; "haa:"; "farriin:doodaha:"; "qoraal"; "tirada"; "boolean"; "kiiska:samee:"; "bartaan:waxaa-loola-jeedaa:"; "qoran"; "dib-u-soo-noqosho"; "jab"; "sii-wad"; "kale:"; "ma-aha"; "iyo:"; "ma-aha:"; "ama:"; "ama:ama:"; "nuqul"; "+"; "ku-dar:"; "-"; "kala-goynta:"; "×"; "ku-dhufo:"; "÷"; "u-qaybi:"; ">"; "≥"; "<"; "≤"; "modulo:"; "hooseeya"; "sare"; "zaokrožen"; "gebi-ahaanba"; "xididka-laba-jibbaaran"; "awood:"; "aan-caadi-ahayn?"; "siman?"; "togan?"; "diidmo?"; "cayriin"; "dhexeeya:iyo:"; "uqalma:"; "shahaadada"; "sin"; "cos"; "tan"; "atan"; "log"; "dherer"; "ka:dherer:"; "ka-saar-meelaha-ku-xeeran"; "dabeecad:"; "hel:"; "ugu-dambeeya:"; "badalo:la:"; "kala-goyn:"; "jumlad-sare"; "boorso-yar"; "bilowga:"; "lifaaq:"; "lambar-caalami-ah"; "hash:"; "jilayaasha"; "waxaa-ku-jira:"; "isbarbar-dhig:"; "walax"; "orod"; "dalbo:"; "dalbo:iyo:"; "dalbo:iyo:iyo:"; "set:qiime:"; "qalad:"; "qabasho:"; "nidaamka"; "halka:"; "←"; "~"; ";"; "horgale:"; "qaado-hore"; "tirin"; "ku-biir:"; "qaado-gadaale"; "booska:"; "ee:"; "?"; "kala-saar:"; "walax:meeshaas:"; "beddel:dherer:leh:"; "liiska:"; "mid-kasta:"; "ugu-yar"; "ugu-badnaan"; "ugu-dambeeya"; "labaad-ee-ugu-dambeeya"; "marka-hore"; "buuxi:la:"; "waxaa-qoray:"; "galinta"; "qiyamka"; "waxay-leedahay:"; "qor:"; "jooji"; "cusub:"; "dariiqa"; "akhri"; "jira"; "cabir"; "tirtir"; "taxane:"; "dood:"; "doodaha"; "dejinta:"; "weydiiso"; "dejinta:qiimaha:"; "xasuus-nadiif-ah"; "xusuusta:"; "wanaagsan:"; "nidaamka:"; "fikrad"; "daadasho"; "xusuusta"; "isticmaal:"; "weydii-sir"; "dhamaadka"; "sug:"; "waqti"; "maalin"; "maalin:"; "bishii"; "bishii:"; "sanadka"; "sanadka:"; "saac"; "saac:"; "daqiiqad"; "daqiiqad:"; "labaad"; "labaad:"; "maalin-shaqo"; "maalinta-sanadka"; "toddobaad"; "aag"; "aag:"; "Walax"; "Waxba"; "Haa-maya"; "Haa"; "Maya"; "Tirada"; "Qoraal"; "Foosha"; "Taxane"; "Liiska"; "Stdout"; "Fayl"; "Barnaamij"; "Waqti"; "Codso"; "Goob-fayl"]);
  ("sq", ["i-ri"; "është-e-barabartë-me:"; "="; "≠"; "në:të-bëjë:"; "pergjigje:"; "përgjigjet:dhe:"; "përgjigjet:dhe:dhe:"; "përgjigjet:dhe:dhe:dhe:"; "lloj"; "nil?"; "vetë"; "bëj"; "e-bërë"; "i-rremë:"; "e-vërtetë:"; "mesazh:argumentet:"; "teksti"; "numër"; "boolean"; "rasti:të-bëjë:"; "mësojnë:do-të-thotë:"; "shkruar"; "rekursiv"; "pushim"; "vazhdoj"; "tjetër:"; "nuk"; "dhe:"; "as:"; "ose:"; "ose:ose:"; "kopje"; "+"; "shtoni:"; "-"; "zbres:"; "×"; "shumëfishohen-nga:"; "÷"; "ndani-me:"; ">"; "≥"; "<"; "≤"; "modulo:"; "ulët"; "lart"; "rrumbullakosur"; "absolut"; "rrenja-katrore"; "fuqia:"; "tek?"; "çift?"; "pozitiv?"; "negativ?"; "i-gjallë"; "midis:dhe:"; "kualifikimin:"; "kualifikimin"; "sin"; "cos"; "tan"; "atan"; "log"; "gjatësi"; "nga:gjatësi:"; "hequr-hapësira-rrethuese"; "karakteri:"; "gjej:"; "i-fundit:"; "zëvendësojë:me:"; "ndarë:"; "me-shkronja-kapitale"; "vogle"; "offset:"; "prapashtesë:"; "numrit-ndërkombëtar"; "hash:"; "karaktere"; "përmban:"; "krahasoni:"; "objekt"; "drejtuar"; "zbatohen:"; "aplikoni:dhe:"; "aplikoni:dhe:dhe:"; "vendosur:vlera:"; "error:"; "kapur:"; "procedurë"; "derisa:"; "←"; "~"; ";"; "parashtesë:"; "ndryshim"; "akuzë"; "bashkohen:"; "pop"; "pozicioni:"; "në:"; "?"; "lloj:"; "vënë:në:"; "zëvendësojë:gjatësi:me:"; "harta:"; "secili:"; "minimum"; "maksimal"; "i-fundit"; "kaluar-dytë"; "i-parë"; "mbushe:me:"; "nga:"; "entries"; "vlerat"; "ka:"; "shkruaj:"; "ndaluar"; "i-ri:"; "rrugë"; "lexoj"; "ekziston"; "madhësi"; "fshij"; "listë:"; "argumenti:"; "argumentet"; "vendosjen:"; "kërkoj"; "vendosjen:vlera:"; "memorie-të-pastër"; "kujtesës:"; "ergonomia:"; "komanda-e-sistemit:"; "të-dhëna"; "turret"; "kujtim"; "përdorni:"; "pyesni-fjalëkalimin"; "fund"; "prisni:"; "kohë"; "ditë"; "ditë:"; "muaj"; "muaj:"; "vit"; "vit:"; "orë"; "orë:"; "minutë"; "minutë:"; "i-dytë"; "dytë:"; "ditë-jave"; "ditë-të-vitit"; "javë"; "zonë"; "zona:"; "Objekt"; "Zero"; "Boolean"; "I-vërtetë"; "I-rremë"; "Numër"; "Teksti"; "Kod"; "Listë"; "Hartë"; "Stdout"; "Skedar"; "Program"; "Moment"; "Udhëzim"; "Vendndodhja-e-skedarit"]);
  ("sr", ["Нова"; "једнако:"; "="; "≠"; "он:до:"; "одговори:"; "одговори:и:"; "одговорити:и:и:"; "одговорити:и:и:и:"; "тип"; "Нула?"; "ја"; "урадити"; "Готово"; "фалсе:"; "истина:"; "порука:аргументи:"; "текст"; "број"; "боолеан"; "случај:уради:"; "научити:значи:"; "како-је-написано"; "рекурзивно"; "пауза"; "Настави"; "иначе:"; "не"; "и:"; "нити:"; "или:"; "или:или:"; "копирати"; "+"; "додати:"; "-"; "одузети:"; "×"; "помножити-са:"; "÷"; "поделити-са:"; ">"; "≥"; "<"; "≤"; "модуло:"; "заокружено-надоле"; "заокружено-до-врха"; "заокружено"; "апсолутни"; "квадратни-корен"; "снага:"; "непаран?"; "паран?"; "позитивно?"; "негативно?"; "сирово"; "између:и:"; "квалификовати:"; "квалификација"; "sin"; "cos"; "tan"; "atan"; "log"; "дужина"; "од:дужина:"; "уклоните-околне-просторе"; "лик:"; "пронађи:"; "последња:"; "замени:са:"; "разделити:"; "велика-слова"; "мала-слова"; "офсет:"; "додати-до-краја:"; "међународни-број"; "хасх:"; "карактера"; "садржи:"; "упоредити:"; "kао-објект"; "трцати"; "применити:"; "применити:и:"; "применити:и:и:"; "подешена:вредност:"; "грешка:"; "улов:"; "процедура"; "док:"; "←"; "~"; ";"; "препенд:"; "смена"; "рачунати"; "придружити:"; "поп"; "позиција:"; "у:"; "?"; "врста:"; "пут:ат:"; "заменити:дужина:са:"; "mапа:"; "сваки:"; "минимум"; "максимално"; "последња"; "други-последњи"; "први"; "попуните:елемената-са:"; "од-стране:"; "уноси"; "вредности"; "има:"; "написати:"; "зауставити"; "Нова:"; "стаза"; "читати"; "постоји"; "величина"; "избриши"; "листа:"; "расправа:"; "аргументи"; "подешавање:"; "питати"; "подешавање:вредност:"; "чиста-меморија"; "меморија:"; "уредност:"; "системска-команда:"; "улазни"; "испирати"; "меморија"; "употреба:"; "питајте-лозинку"; "крај"; "чекати:"; "време"; "дан"; "дан:"; "месец-дана"; "месец-дана:"; "године"; "година:"; "сат"; "сат:"; "минуту"; "минут:"; "друго"; "друго:"; "радним-даном"; "дан-у-години"; "Недеља"; "зона"; "зона:"; "Објект"; "Нула"; "Боолеан"; "Истина"; "Лажно"; "Број"; "Tекст"; "Код"; "Листа"; "Мапа"; "Stdout"; "Филе"; "Програм"; "Тренутак"; "Упутство"; "Локација-датотеке"])].
