(** The words for built-in messages and objects in the languages st to zu (i18n/*/dictionary.h 7-203),
    in the order of [macros] (RegTable.v). *)
From Coq Require Import List String.
Import ListNotations.
Local Open Scope string_scope.

Definition dictionaries4 : list (string * list string) := [
  ("st", ["ncha"; "e-lekanang:"; "="; "≠"; "molaetsa:sebetsa:"; "araba:"; "araba:le:"; "araba:le:hape:"; "araba:le:hape:hape:"; "mofuta"; "letho?"; "nna"; "etsa"; "etsoa"; "che:"; "ee:"; "molaetsa:ngangisano:"; "mongolo"; "palo"; "boolean"; "nyeoe:etsa:"; "ithuta:e-bolela:"; "khoutu"; "ipheta"; "qhekella"; "tswela-pele"; "se-seng:"; "eseng"; "le:"; "eseng-mme-eseng:"; "kapa:"; "kapa:kapa:"; "kopitsa"; "+"; "eketsa:"; "-"; "tlosa:"; "×"; "ngata-ka:"; "÷"; "arola-ka:"; ">"; "≥"; "<"; "≤"; "modulo:"; "mokatong"; "siling"; "ho-pota"; "ka-ho-felletseng"; "sekwere-metso"; "matla:"; "makatsang?"; "lekanang?"; "e-ntle?"; "hampe?"; "e-tala"; "pakeng-tsa:le:"; "tšoaneleha:"; "tšoaneleho"; "sin"; "cos"; "tan"; "atan"; "log"; "bolelele"; "ho-tloha:bolelele:"; "tlosa-libaka-tse-o-potileng"; "botho:"; "fumana:"; "ea-hoqetela:"; "nka-sebaka:ka:"; "arohane:"; "bokaholimo"; "mokotlana"; "offset:"; "sehlomathisi:"; "palo-ea-machabeng"; "hash:"; "libapali"; "e-na:"; "bapisa:"; "ntho"; "matha"; "sebetsa:"; "sebetsa:le:"; "sebetsa:le:hape:"; "sete:boleng:"; "phoso:"; "tšoasa:"; "ts'ebetso"; "ha:"; "←"; "~"; ";"; "sehlongoapele:"; "kota"; "akaretsa"; "ikopanye:"; "kepisi"; "boemo:"; "ka:"; "?"; "ho-hlopha:"; "beha:ka:"; "nka-sebaka:bolelele:le:"; "lethathamo:"; "e-']ngoe-le-e']-ngoe:"; "tlase"; "holimo"; "qetela"; "ea-bobeli-ea-ho-qetela"; "pele"; "tlatsa:ntho:"; "ka-yuniti:"; "melaena"; "boleng"; "has:"; "ngola:"; "ema"; "ncha:"; "tsela"; "bala"; "e-teng"; "boholo"; "hlakola"; "letoto:"; "khang:"; "khang"; "moralo:"; "botsa"; "sebopeho:boleng:"; "mohopolo-o-hloekileng"; "mohopolo:"; "litaba:"; "mochini:"; "tlatsetso"; "sesa"; "memori"; "sebelisa:"; "botsa-phasewete"; "qeta"; "emela:"; "nako"; "letsatsi"; "letsatsi:"; "khoeli"; "khoeli:"; "selemo"; "selemo:"; "hora"; "hora:"; "motsotso"; "motsotso:"; "ea-bobeli"; "ea-bobeli:"; "letsatsi-la-beke"; "letsatsi-la-selemo"; "beke"; "zone"; "zone:"; "Ntho"; "Letho"; "Ee/Che"; "Ee"; "Che"; "Palo"; "Mongolo"; "Sebetsa"; "Letoto"; "Lethathamo"; "Stdout"; "Faele"; "Letotoo"; "Mots']eare"; "Laela"; "Sebaka-sa-faele"]);
  ("su", ["anyar"; "sarua:"; "="; "≠"; "pada:ngalakukeun:"; "ngabales:"; "ngabales:jeung:"; "ngabales:sareng:sareng:"; "ngaréspon:sareng:sareng:sareng:"; "ngetik"; "nil?"; "kuring-sorangan"; "ngalakukeun"; "réngsé"; "palsu:"; "leres:"; "pesen:dalil:"; "téks"; "jumlah"; "boolean"; "pasualan:ngalakukeun:"; "diajar:hartosna:"; "kode"; "recursive"; "istirahat"; "nuluykeun"; "sejenna:"; "henteu"; "jeung:"; "_atanapi:"; "atanapi:"; "boh:atanapi:"; "nyalin"; "+"; "tambahkeun:"; "-"; "dikurangan:"; "×"; "kalikeun-ku:"; "÷"; "ngabagi-ku:"; ">"; "≥"; "<"; "≤"; "modulo:"; "tehel"; "ceil"; "buleud"; "mutlak"; "akar-pasagi"; "kakuatan:"; "ganjil?"; "komo?"; "positip?"; "negatip?"; "atah"; "antara:jeung:"; "kualifikasi:"; "kualifikasi"; "sin"; "cos"; "tan"; "atan"; "log"; "panjang"; "tina:panjang:"; "miceun-rohangan-sakurilingna"; "karakter:"; "manggih:"; "tukang:"; "ngagantikeun:sareng:"; "beulah:"; "kotak-surat"; "hurup-leutik"; "offset:"; "ahiran:"; "nomer-internasional"; "hasah:"; "aksara"; "ngandung:"; "ngabandingkeun:"; "obyek"; "lalumpatan"; "panawaran:"; "panawaran:jeung:"; "panawaran:sareng:sareng:"; "diatur:nilai:"; "kasalahan:"; "nyekel:"; "prosedur"; "sedengkeun:"; "←"; "~"; ";"; "awalan:"; "gésér"; "ngitung"; "ngiluan:"; "prune"; "posisi:"; "tabuh:"; "?"; "diurutkeun:"; "nempatkeun:di:"; "ngagentos:panjang:sareng:"; "peta:"; "masing-masing:"; "pang-copelna"; "maksimum"; "tukang"; "kadua-panungtungan"; "mimitina"; "eusian:sareng:"; "ku:"; "éntri"; "nilai"; "has:"; "nulis:"; "eureun"; "anyar:"; "jalan"; "maca"; "nyampak"; "ukuran"; "mupus"; "daptar:"; "argumen:"; "argumen"; "setting:"; "naros"; "setting:nilai:"; "mémori-beresih"; "ingetan:"; "tidiness:"; "sistim:"; "asupan"; "siram"; "pangeling-eling"; "anggo:"; "naroskeun-kecap-akses"; "tungtung"; "antosan:"; "waktosna"; "dinten"; "dinten:"; "sasih"; "sasih:"; "sataun"; "taun:"; "jam"; "jam:"; "menit"; "menit:"; "kadua"; "kadua:"; "minggu"; "poe-dina-sataun"; "saminggu"; "zona"; "zona:"; "Obyek"; "Nil"; "Boolean"; "Leres"; "Palsu"; "Nomer"; "Téks"; "Kode"; "Daptar"; "Peta"; "Stdout"; "File"; "Program"; "Nyarios"; "Pitunjuk"; "Lokasi-file"]);
  ("sv", ["ny"; "är-lika-med:"; "="; "≠"; "på:göra:"; "svara:"; "svara:och:"; "svara:och:och:"; "svara:och:och:och:"; "typ"; "tömma?"; "jag-själv"; "do"; "gjort"; "falsk:"; "sann:"; "meddelande:argument:"; "text"; "siffra"; "boolean"; "fall:göra:"; "lära:sätt:"; "code"; "recursive"; "stoppa"; "fortsätta"; "annan:"; "inte"; "och:"; "te-heller:"; "eller:"; "antingen:eller:"; "kopia"; "+"; "lägg-till:"; "-"; "subtrahera:"; "×"; "multiplicera-med:"; "÷"; "dela-med:"; ">"; "≥"; "<"; "≤"; "modulo:"; "avrundat-nedåt"; "avrundat-uppåt"; "avrundat"; "absolut"; "roten-ur"; "kraft:"; "udda?"; "jämnt?"; "positiv?"; "negativ?"; "rå"; "mellan:och:"; "kvalificering:"; "kvalificering"; "sin"; "cos"; "tan"; "atan"; "log"; "längd"; "från:längd:"; "avlägsna-omgivande-utrymmen"; "karaktär:"; "hitta:"; "sista:"; "ersätta-med:__:"; "dela:"; "versal"; "små-bokstäver"; "offset:"; "bifoga:"; "internationellt-nummer"; "hash:"; "tecken"; "innehåller:"; "jämföra:"; "objekt"; "springa"; "tillämpa:"; "gälla:och:"; "gälla:och:och:"; "satt:värde:"; "fel:"; "fånga:"; "procedur"; "medan:"; "←"; "~"; ";"; "addera-till-början:"; "ta-den-första"; "räkna"; "ansluta-sig:"; "ta-sist"; "placera:"; "på:"; "?"; "sortera:"; "sätta:vid:"; "ersätta:längd:med:"; "lista:"; "varje:"; "minimum"; "maximal"; "sista"; "näst-sist"; "först"; "fyll-med:__:"; "förbi:"; "anteckningar"; "värden"; "har:"; "skriva:"; "stop"; "ny:"; "väg"; "läsa"; "existerar"; "storlek"; "radera"; "serie:"; "argument:"; "argument"; "miljö:"; "fråga"; "inställning:värde:"; "ren-minne"; "minne:"; "tidiness:"; "skal:"; "inmatning"; "spola"; "minne"; "använda-sig-av:"; "fråga-lösenord"; "slutet"; "vänta:"; "tid"; "dag"; "_dag:"; "månad"; "_månad:"; "år"; "år:"; "timme"; "timme:"; "minut"; "minut:"; "andra"; "andra:"; "veckodag"; "dagen-på-året"; "vecka"; "zon"; "zon:"; "Objekt"; "Tömma"; "Boolean"; "Sann"; "Falsk"; "Siffra"; "Text"; "Uppgift"; "Serie"; "Lista"; "Stdout"; "Fil"; "Program"; "Ögonblick"; "Instruktioner"; "Filplats"]);
  ("sw", ["mpya"; "sawa:"; "="; "≠"; "on:fanya:"; "kujibu:"; "kujibu:na:"; "kujibu:na:na:na:"; "kujibu:na:na:na:na:"; "aina"; "hakuna-kitu?"; "mimi-mwenyewe"; "fanya"; "kumaliza"; "hapana:"; "ndiyo:"; "ujumbe:hoja:"; "maandishi"; "nambari"; "boolean"; "kesi:fanya:"; "jifunze:inamaanisha:"; "iliyoandikwa"; "kujirudia"; "kuvunja"; "endelea"; "mwingine:"; "sivyo"; "na:"; "wala:"; "au:"; "ama:au:"; "nakala"; "+"; "ongeza:"; "-"; "ondoa:"; "×"; "kuzidisha-na:"; "÷"; "gawanya-na:"; ">"; "≥"; "<"; "≤"; "modulo:"; "chini"; "juu"; "pande-zote"; "kabisa"; "kipeo"; "nguvu:"; "isiyo-ya-kawaida?"; "hata?"; "chanya?"; "hasi?"; "mbichi"; "kati-ya:na:"; "kuhitimu:"; "sifa"; "sin"; "cos"; "tan"; "atan"; "log"; "urefu"; "kutoka:urefu:"; "ondoa-nafasi-zilizo-karibu"; "tabia:"; "pata:"; "mwisho:"; "badala:na:"; "mgawanyiko:"; "kitambaa-cha-juu"; "karatasi-ndogo"; "kukabiliana:"; "kiambishi-tamati:"; "idadi-ya-kimataifa"; "hash:"; "wahusika"; "_ina:"; "linganisha:"; "kitu"; "kukimbia"; "kuomba:"; "kuomba:na:"; "kuomba:na:na:"; "kuweka:thamani:"; "kosa:"; "samaki:"; "utaratibu"; "wakati:"; "←"; "~"; ";"; "kiambishi-awali:"; "chukua-kwanza"; "hesabu"; "jiunge:"; "kuchukua-mwisho"; "nafasi:"; "katika:"; "?"; "aina:"; "weka:saa:"; "badala:urefu:na:"; "orodha:"; "kila-moja:"; "kiwango-cha-chini"; "kiwango-cha-juu"; "_mwisho"; "pili-la-mwisho"; "kwanza"; "kujaza:na:"; "kwa:"; "viingilio"; "maadili"; "ina:"; "andika:"; "acha"; "mpya:"; "njia"; "soma"; "ipo"; "saizi"; "futa"; "msururu:"; "hoja:"; "hoja"; "mpangilio:"; "uliza"; "mpangilio:thamani:"; "kumbukumbu-safi"; "kumbukumbu:"; "urafiki:"; "amri-ya-mfumo:"; "pembejeo"; "topea"; "kumbukumbu"; "tumia:"; "uliza-nywila"; "mwisho"; "subiri:"; "wakati"; "siku"; "siku:"; "mwezi"; "mwezi:"; "mwaka"; "mwaka:"; "saa"; "saa:"; "dakika"; "dakika:"; "pili"; "pili:"; "siku-ya-wiki"; "siku-ya-mwaka"; "wiki"; "eneo"; "eneo:"; "Kitu"; "Hakuna-kitu"; "Ndiyo-au-hapana"; "Ndiyo"; "Hapana"; "Nambari"; "Maandishi"; "Kazi"; "Msururu"; "Orodha"; "Stdout"; "Faili"; "Programu"; "Wakati"; "Maagizo"; "Mahali-pa-faili"]);
  ("ta", ["புதியது"; "சமம்:"; "="; "≠"; "பணி:நடவடிக்கை:"; "பதிலளிக்கவும்:"; "பதிலளிக்கவும்:மற்றும்:"; "பதிலளிக்கவும்:மற்றும்:மற்றும்:"; "பதிலளிக்கவும்:மற்றும்:மற்றும்:மற்றும்:"; "வகை"; "வெறுமை?"; "நானே"; "செய்"; "முடிந்தது"; "இல்லை:"; "ஆம்:"; "செய்தி:வாதங்கள்:"; "உரையை-உருவாக்கவும்"; "அளவிட"; "முடிவுரை"; "வழக்கு:செய்:"; "நினைவூட்ட:பொருள்:"; "குறியீடு"; "சுழல்நிலை"; "உடைக்க"; "தொடரவும்"; "வேறு:"; "இல்லை"; "மற்றும்:"; "_அல்லது:"; "அல்லது:"; "அல்லது:அல்லது:"; "நகல்"; "+"; "கூட்டு:"; "-"; "கழித்தல்:"; "×"; "இதன்-மூலம்-பெருக்கவும்:"; "÷"; "வகுக்க:"; ">"; "≥"; "<"; "≤"; "மாடுலோ:"; "வட்டமான-எண்-குறைந்த"; "வட்டமான-எண்-உயர்"; "வட்டமான-எண்"; "அறுதி"; "சதுர-வேர்"; "சக்தி:"; "ஒற்றைப்படை-எண்?"; "ஒரு-சம-எண்?"; "நேர்மறை?"; "எதிர்மறை?"; "பச்சையாக"; "இடையில்:மற்றும்:"; "தகுதி:"; "தகுதி"; "sin"; "cos"; "tan"; "atan"; "log"; "நீளம்"; "இருந்து:நீளம்:"; "சுற்றியுள்ள-இடங்களை-அகற்றவும்"; "தன்மை:"; "கண்டுபிடி:"; "கடந்த:"; "பதிலாக:உடன்:"; "பிளவு:"; "பெரிய-எழுத்து"; "சிற்றெழுத்து"; "ஆஃப்செட்:"; "பின்னொட்டு:"; "சர்வதேச-எண்"; "ஹாஷ்:"; "எழுத்துக்கள்"; "கொண்டுள்ளது:"; "ஒப்பிடுக:"; "ஒரு-பொருளாக"; "ஓடு"; "விண்ணப்பிக்கவும்:"; "விண்ணப்பிக்கவும்:மற்றும்:"; "விண்ணப்பிக்கவும்:மற்றும்:மற்றும்:"; "தொகுப்பு:மதிப்பு:"; "பிழை:"; "பிடி:"; "செயல்முறை"; "போது:"; "←"; "~"; ";"; "முன்னொட்டு:"; "முதல்-பொருளைப்-பிடிக்கவும்"; "எண்ணிக்கை"; "சேர:"; "கடைசி-பொருளைப்-பிடிக்கவும்"; "நிலை:"; "இல்:"; "?"; "வகைபடுத்து:"; "நகர்த்து:முதல்:"; "பதிலாக:நீளம்:உடன்:"; "பட்டியல்-கொடுக்க்:"; "ஒவ்வொன்றும்:"; "குறைந்தபட்சம்"; "அதிகபட்சம்"; "கடந்த"; "இரண்டாவது-கடைசி"; "முதல்"; "நிரப்பு:உடன்:"; "வழங்கியவர்:"; "உள்ளீடுகள்"; "மதிப்புகள்"; "உள்ளது:"; "எழுது:"; "நிறுத்து"; "புதியது:"; "பாதை"; "படி"; "கொண்டுள்ளது"; "அளவு"; "அழி"; "கொடுக்க-வரிசை:"; "வாதம்:"; "வாதங்கள்"; "அமைப்பு:"; "கேளுங்கள்"; "அமைப்பு:மதிப்பு:"; "சுத்தமான-நினைவகம்"; "நினைவு:"; "நேர்த்தி:"; "கணினி-கட்டளை:"; "உள்ளீடு"; "பறிப்பு"; "நினைவு"; "பயன்பாடு:"; "கடவுச்சொல்லை-கேட்கவும்"; "முடிவு"; "காத்திரு:"; "நேரம்"; "நாள்"; "நாள்:"; "மாதம்"; "மாதம்:"; "ஆண்டு"; "ஆண்டு:"; "மணி"; "மணி:"; "நிமிடம்"; "நிமிடம்:"; "இரண்டாவது"; "இரண்டாவது:"; "வார-நாள்"; "ஆண்டின்-நாள்"; "வாரம்"; "மண்டலம்"; "மண்டலம்:"; "பொருள்"; "வெறுமை"; "ஆம்-அல்லது-இல்லை"; "உண்மை"; "பொய்"; "எண்"; "உரை"; "பணி"; "வரிசை"; "பட்டியல்"; "Stdout"; "கோப்பு"; "திட்டம்"; "தருணம்"; "வழிமுறைகள்"; "கோப்பு-இடம்"]);
  ("te", ["కొత్త"; "సమానం:"; "="; "≠"; "న:దీన్ని:"; "ఎడాపెడా:"; "స్పందిస్తాయి:మరియు:"; "స్పందిస్తాయి:మరియు:మరియు:"; "స్పందిస్తాయి:మరియు:మరియు:మరియు:"; "రకం"; "శూన్యం?"; "నాకు"; "అలా"; "పూర్తి"; "సంఖ్య:"; "సరే:"; "సందేశం:ఆర్గ్యుమెంట్స్:"; "వచనంగా-మార్చండి"; "సంఖ్యాపరమైన"; "అవును-లేదా-కాదు"; "కేసు:చేయండి:"; "తెలుసుకోండి:అంటే:"; "రచనలో"; "పునరావృత"; "విరామం"; "కొనసాగించడానికి"; "లేకపోతే:"; "కాదు"; "మరియు:"; "కూడా-కాదు:"; "లేదా:"; "లేదా:లేదా:"; "కాపీని"; "+"; "జోడించండి:"; "-"; "వ్యవకలనం:"; "×"; "గుణకారం-ద్వారా:"; "÷"; "భాగించడం:"; ">"; "≥"; "<"; "≤"; "మాడ్యులో:"; "డౌన్-గుండ్రంగా"; "పైకి-గుండ్రంగా"; "గుండ్రంగా"; "సంపూర్ణ"; "వర్గమూలం"; "శక్తి:"; "బేసి?"; "సరి?"; "అనుకూల?"; "ప్రతికూల?"; "ముడి"; "సంఖ్య-నుండి:వరకు:"; "అర్హత:"; "క్వాలిఫికేషన్"; "sin"; "cos"; "tan"; "atan"; "log"; "పొడవు"; "నుండి:పొడవు:"; "పరిసర-ప్రదేశాలు-తొలగించడానికి"; "పాత్ర:"; "కనుగొనండి:"; "చివరగా:"; "భర్తీ:తో:"; "విడిపోయింది:"; "అప్పర్కేస్"; "చిన్న"; "ఆఫ్సెట్:"; "append:"; "అంతర్జాతీయ-సంఖ్యా"; "హాష్:"; "అక్షరాలు"; "కలిగి:"; "సరిపోల్చండి:"; "ఒక-వస్తువుగా"; "రన్"; "దరఖాస్తు:"; "దరఖాస్తు:మరియు:"; "దరఖాస్తు:మరియు:మరియు:"; "సెట్:విలువ:"; "లోపం:"; "క్యాచ్:"; "విధానం"; "అయితే:"; "←"; "~"; ";"; "prepend:"; "మొదటి-మూలకాన్ని-తీసుకోండి"; "కౌంట్"; "చేరడానికి:"; "చివరి-మూలకాన్ని-తీసుకోండి"; "స్థానం:"; "వద్ద:"; "?"; "క్రమం:"; "చాలు:వద్ద:"; "భర్తీ:పొడవు:తో:"; "జంటలు:"; "ప్రతి:"; "కనీస"; "గరిష్ట"; "గత"; "రెండవ-చివరి"; "ప్రధమ"; "పూరించడానికి:తో:"; "ద్వారా:"; "ఎంట్రీలు"; "విలువలు"; "ఉంది:"; "వ్రాయడానికి:"; "స్టాప్"; "కొత్త:"; "మార్గం"; "చదవండి"; "ఉనికిలో"; "పరిమాణం"; "తొలగించండి"; "సిరీస్:"; "వాదన:"; "వాదనలు"; "అమరిక:"; "అడగండి"; "సెట్టింగ్:విలువ:"; "శుభ్రంగా-మెమరీ"; "మెమరీ:"; "శుభ్రముచేసి-క్రమముగా-ఉంచు:"; "సిస్టమ్-ఆదేశం:"; "ఇన్పుట్"; "ఫ్లష్"; "మెమరీ"; "వా-డు:"; "పాస్వర్డ్-అడగండి"; "ముగింపు"; "వేచి:"; "సమయం"; "రోజు"; "రోజు:"; "నెల"; "నెల:"; "సంవత్సరం"; "సంవత్సరం:"; "గంట"; "గంట:"; "నిమిషం"; "నిమిషం:"; "రెండవ"; "రెండవ:"; "వారపు"; "సంవత్సరం-రోజు"; "వారం"; "జోన్"; "జోన్:"; "ఆబ్జెక్ట్"; "శూన్యం"; "నిర్ణయం"; "ట్రూ"; "తప్పుడు"; "సంఖ్య"; "వచనము"; "కోడ్"; "జాబితా"; "మ్యాప్"; "Stdout"; "ఫైలు"; "ప్రోగ్రామ్"; "క్షణం"; "సూచనలు"; "స్థలం"]);
  ("tg", ["нав"; "баробар:"; "="; "≠"; "оид-ба:кардан:"; "ҷавоб-диҳед:"; "ҷавоб-додан:ва:"; "ҷавоб-додан:ва:ва:"; "ҷавоб-диҳед:ва:ва:ва:"; "намуди"; "холӣ?"; "худам"; "кунад"; "карда-шудааст"; "не:"; "ҳа:"; "паём:далелҳо:"; "матн"; "шумора"; "ҳа-ё-не"; "ҳолат:мекунед:"; "омӯхтан:маънои:"; "код"; "рекурсивӣ"; "танаффус"; "идома-диҳед"; "дигар:"; "нест"; "ва:"; "на:"; "ё:"; "ё:ё:"; "нусхабардорӣ"; "+"; "илова-кардан:"; "-"; "ихтисор-кардан:"; "×"; "зиёдтар-аз:"; "÷"; "таќсим-кардан:"; ">"; "≥"; "<"; "≤"; "модул:"; "ошёна"; "шифер"; "давр"; "мутлаќ"; "решаи-мураббаъ"; "барқ:"; "тоқ?"; "ҷуфт?"; "мусбат?"; "манфӣ?"; "хом"; "миёни:ва:"; "тахассус:"; "ихтисос"; "sin"; "cos"; "tan"; "atan"; "log"; "дарозӣ"; "аз:дарозӣ:"; "тоза"; "хислат:"; "ёфтан:"; "охир:"; "иваз:бо:"; "Зада-шикастан:"; "ҳарфҳои-калон"; "ҳарфҳои-хурд"; "ҷуброн:"; "суффикс:"; "рақами-байналмилалӣ"; "ҳаш:"; "аломатҳои"; "дар-бар-мегирад:"; "муқоиса:"; "Ҳамчун-объекти"; "давида"; "татбиқ:"; "татбиқ:ва:"; "муроҷиат-кунед:ва:ва:"; "насб:арзиш:"; "хатогӣ:"; "сайд-кардан:"; "тартиби"; "дар-ҳоле-ки:"; "←"; "~"; ";"; "префикси:"; "бурида-префикси"; "ҳисоб"; "ҳамроҳ-шудан:"; "бурида-суффикс"; "вазифа:"; "дар:"; "?"; "навъ:"; "гузошта:дар:"; "иваз:дарозӣ:бо:"; "харита:"; "ҳар-як:"; "ҳадди-аққал"; "максимум"; "охирин"; "дуюм-дуюм"; "аввал"; "пур:бо:"; "аз-ҷониби:"; "вурудоти"; "арзишҳо"; "дорад:"; "навиштан:"; "Ист"; "нав:"; "роҳ"; "хонед"; "вуҷуд-дорад"; "андоза"; "нест-кардан"; "рӯйхат:"; "далел:"; "далелҳо"; "танзим:"; "пурсед"; "танзим:арзиши:"; "хотираи-тоза"; "хотира:"; "дуруст:"; "cистемная-дастаи:"; "вуруд"; "шуст"; "хотира"; "истифода-бурдан:"; "парол-пурсед"; "Поён"; "интизор-шудан:"; "вақт"; "рӯз"; "рӯз:"; "моҳ"; "моҳ:"; "сол"; "сол:"; "соат"; "соат:"; "дақиқа"; "дақиқа:"; "дуюм"; "дуюм:"; "рӯзи-ҳафта"; "рӯзи-сол"; "ҳафта"; "минтақаи"; "минтақа:"; "Объекти"; "Холӣ"; "Ҳа-е-не"; "Ҳа"; "Не"; "Шумора"; "Матни"; "Вазифаи"; "Рӯйхат"; "Харитаи"; "Stdout"; "Файл"; "Барнома"; "МОДАР"; "Дастурҳо"; "Ҷойгиршавии-файл"]);
  ("th", ["ใหม่"; "เท่ากับ:"; "="; "≠"; "เมื่อ:ทำ:"; "ตอบกลับ:"; "ตอบกลับ:และ:"; "ตอบกลับ:และ:และ:"; "ตอบกลับ:และ:และ:และ:"; "ชนิด"; "ไม่มีอะไร?"; "ตนเอง"; "ทำ"; "เสร็จแล้ว"; "ไม่:"; "ใช่:"; "ข้อความ:ข้อโต้แย้ง:"; "ใส่ลงในคำ"; "คำนวณ"; "บูล"; "กรณี:ทำ:"; "ได้เรียนรู้:วิธีการ:"; "เขียนลงไป"; "เรียกซ้ำ"; "หยุดพัก"; "ต่อ"; "อื่น:"; "ตรงข้าม"; "และ:"; "มิได้:"; "หรือ:"; "อย่างใดอย่างหนึ่ง:หรือ:"; "สำเนา"; "+"; "เพิ่ม:"; "-"; "ลบ:"; "×"; "คูณด้วย:"; "÷"; "หารด้วย:"; ">"; "≥"; "<"; "≤"; "โมดูโล:"; "ต่ำ"; "สูง"; "รอบ"; "แน่นอน"; "รากที่สอง"; "พลังงาน:"; "แปลก?"; "ยัง?"; "บวก?"; "ใช่หรือไม่"; "ดิบ"; "ระหว่าง:ถึง:"; "มีคุณสมบัติ:"; "มีคุณสมบัติ"; "sin"; "cos"; "tan"; "atan"; "log"; "ความยาว"; "จาก:ยาว:"; "ลบช่องว่างโดยรอบ"; "ตัวอักษร:"; "หา:"; "ล่าสุด:"; "แทนที่:ด้วย:"; "แยก:"; "ตัวพิมพ์ใหญ่"; "ตัวพิมพ์เล็ก"; "ชดเชย:"; "คำต่อท้าย:"; "เบอร์ต่างประเทศ"; "กัญชา:"; "ตัวละคร"; "ประกอบด้วย:"; "เปรียบเทียบ:"; "โครงสร้าง"; "วิ่ง"; "เพื่อนำไปใช้:"; "เพื่อนำไปใช้:และ:"; "เพื่อนำไปใช้:และ:และ:"; "ตัวแปร:ค่า:"; "ข้อผิดพลาด:"; "การจัดการข้อผิดพลาด:"; "ขั้นตอน"; "ในขณะที่:"; "←"; "~"; ";"; "คำนำหน้า:"; "นำวัตถุชิ้นแรก"; "นับ"; "เข้าร่วม:"; "ใช้รายการสุดท้าย"; "ตำแหน่ง:"; "ที่:"; "?"; "จัดเรียง:"; "วาง:ที่:"; "แทนที่:ความยาว:ด้วย:"; "หนังสือ:"; "แต่ละ:"; "ขั้นต่ำ"; "ขีดสุด"; "ล่าสุด"; "วินาทีสุดท้าย"; "เป็นครั้งแรก"; "เติม:ด้วย:"; "โดย:"; "รายการ"; "ค่า"; "มี:"; "เขียน:"; "หยุด"; "ใหม่:"; "เส้นทาง"; "อ่าน"; "ที่มีอยู่"; "ขนาด"; "หายไป"; "ชุด:"; "การโต้เถียง:"; "ข้อโต้แย้ง"; "การกำหนดค่า:"; "ถาม"; "การกำหนดค่า:ติดตั้ง:"; "หน่วยความจำที่สะอาด"; "หน่วยความจำ:"; "ความเป็นระเบียบเรียบร้อย:"; "คำสั่งของระบบ:"; "อินพุต"; "เปี่ยม"; "หน่วยความจำ"; "เครื่องมือ:"; "ขอรหัสผ่าน"; "ปลาย"; "รอ:"; "เวลา"; "วัน"; "วัน:"; "เดือน"; "เดือน:"; "ปี"; "ปี:"; "ชั่วโมง"; "ชั่วโมง:"; "นาที"; "นาที:"; "ที่สอง"; "สอง:"; "ในวันทำงาน"; "วันของปี"; "สัปดาห์"; "โซน"; "โซน:"; "วัตถุ"; "ไม่มีอะไร"; "การตัดสินใจ"; "ใช่"; "ไม่"; "จำนวน"; "คำ"; "รหัส"; "ชุด"; "หนังสือี่"; "Stdout"; "ไฟล์"; "โปรแกรม"; "ขณะ"; "คำแนะนำ"; "พื้นที่"]);
  ("tk", ["täze"; "deňdir:"; "="; "≠"; "üstünde:et:"; "jogap-ber:"; "jogap-ber:we:"; "jogap-beriň:we:we:"; "jogap-beriň:we:we:we:"; "görnüşi"; "nil?"; "özüm"; "et"; "ýerine-ýetirildi"; "ýalan:"; "dogry:"; "habar:argumentler:"; "tekst"; "sany"; "boolean"; "mysal:et:"; "öwrenmek:diýmek:"; "ýazylan"; "gaýtalanýan"; "arakesme"; "dowam-et"; "başga:"; "däl"; "we:"; "ikisem-ýok:"; "ýa-da:"; "ýa-da:ýa-da:"; "göçürmek"; "+"; "goş:"; "-"; "aýyrmak:"; "×"; "köpeltmek:"; "÷"; "bölüň:"; ">"; "≥"; "<"; "≤"; "modul:"; "pes"; "beýik"; "tegelek"; "mutlak"; "inedördül-kök"; "güýji:"; "täsin?"; "hatda?"; "oňyn?"; "otrisatel?"; "çig"; "arasynda:we:"; "kwalifikasiýa:"; "kär"; "sin"; "cos"; "tan"; "atan"; "log"; "uzynlygy"; "dan:uzynlyk:"; "töwerekdäki-ýerleri-aýyryň"; "häsiýet:"; "tap:"; "iň-soňky:"; "çalyşmak:bilen:"; "bölmek:"; "baş-harp"; "kiçi-harp"; "ofset:"; "goşundy:"; "halkara-sany"; "hash:"; "nyşanlary"; "öz-içine-alýar:"; "deňeşdiriň:"; "obýekt"; "ylga"; "ýüz-tutuň:"; "ýüz-tutuň:we:"; "ulanyň:we:we:"; "set:value:"; "ýalňyşlyk:"; "tutmak:"; "tertibi"; "wagty:"; "←"; "~"; ";"; "taýýarlamak:"; "birinjini-tut"; "hasapla"; "goşul:"; "iň-soňkusyny-al"; "ýagdaýy:"; "at:"; "?"; "sort:"; "obýekt:ýeri:"; "çalyş:uzynlyk:bilen:"; "sanaw:"; "hersi:"; "iň-az"; "maksimum"; "iň-soňky"; "ikinji-soňky"; "ilki-bilen"; "doldur:bilen:"; "ýazan:"; "ýazgylar"; "gymmatlyklary"; "bar:"; "ýaz:"; "dur"; "täze:"; "ýol"; "oka"; "bar"; "ululygy"; "poz"; "seriýa:"; "argument:"; "argumentler"; "sazlamak:"; "sora"; "sazlama:baha:"; "arassa-ýat"; "ýat:"; "tertipli:"; "ulgamy:"; "giriş"; "ýuwmak"; "ýat"; "ulanmak:"; "parol-sora"; "soňy"; "garaş:"; "wagt"; "gün"; "gün:"; "aý"; "aý:"; "ýyl"; "ýyl:"; "sagat"; "sagat:"; "minut"; "minut:"; "ikinji"; "ikinji:"; "dynç-güni"; "ýylyň-güni"; "hepde"; "zona"; "zona:"; "Obýekt"; "Nil"; "Boolean"; "Dogry"; "Sealňyş"; "San"; "Tekst"; "Kod"; "Seriýa"; "Sanaw"; "Stdout"; "Faýl"; "Programma"; "Wagt"; "Görkezmeler"; "Faýlyň-ýerleşýän-ýeri"]);
  ("tl", ["bago"; "pantay-pantay:"; "="; "≠"; "sa:gawin:"; "tumugon:"; "tumugon:at:"; "tumugon:at:at:"; "tumugon:at:at:at:"; "uri"; "Wala?"; "aking-sarili"; "gawin"; "tapos-na"; "hindi:"; "oo:"; "mensahe:argumento:"; "string"; "bilang"; "oo-o-hindi"; "kaso:gawin:"; "alamin:nangangahulugang:"; "sumulat"; "recursive"; "pahinga"; "magpatuloy"; "kung-hindi:"; "hindi"; "at:"; "ni:"; "o:"; "alinman:o:"; "kopya"; "+"; "idagdag:"; "-"; "ibawas:"; "×"; "magparami-ng:"; "÷"; "hatiin-sa-pamamagitan-ng:"; ">"; "≥"; "<"; "≤"; "modulo:"; "mababa"; "mataas"; "bilog"; "ganap"; "square-root"; "kapangyarihan:"; "kakaiba?"; "kahit-na?"; "positibo?"; "negatibo?"; "hilaw"; "sa-pagitan-ng:at:"; "paglalarawan:"; "paglalarawan"; "sin"; "cos"; "tan"; "atan"; "log"; "haba"; "mula-sa:haba:"; "alisin-ang-mga-nakapalibot-na-puwang"; "character:"; "hanapin:"; "huling:"; "palitan:ng:"; "hatiin:"; "uppercase"; "maliit-na-titik"; "offset:"; "ikabit:"; "international-number"; "hash:"; "mga-character"; "naglalaman-ng:"; "ihambing:"; "bagay"; "tumakbo"; "mag-apply:"; "mag-apply:at:"; "mag-apply:at:at:"; "itinakda:halaga:"; "error:"; "mahuli:"; "pamamaraan"; "habang:"; "←"; "~"; ";"; "maghanda:"; "kunin-ang-una"; "mabilang"; "sumali:"; "kunin-ang-huling"; "posisyon:"; "sa:"; "?"; "ayusin:"; "ilagay:sa:"; "palitan:haba:may:"; "mapa:"; "bawat-isa:"; "minimum"; "maximum"; "huling"; "pangalawa-sa-huli"; "una"; "punan:gamit-ang:"; "bawat:"; "mga-entry"; "mga-halaga"; "ay-may:"; "sumulat:"; "huminto"; "bago:"; "landas"; "basahin"; "umiiral"; "laki"; "tanggalin"; "listahan:"; "pagtatalo:"; "mga-argumento"; "setting:"; "magtanong"; "setting:halaga:"; "malinis-na-memorya"; "memorya:"; "kaligayahan:"; "utos-ng-system:"; "input"; "sirain"; "memorya"; "gamitin:"; "magtanong-password"; "wakas"; "maghintay:"; "orasan"; "araw"; "araw:"; "buwan"; "buwan:"; "taon"; "taon:"; "oras"; "oras:"; "minuto"; "minuto:"; "pangalawa"; "pangalawa:"; "araw-ng-linggo"; "araw-ng-taon"; "linggo"; "zone"; "zone:"; "Bagay"; "Wala"; "Oo-o-hindi"; "Oo"; "Hindi"; "Bilang"; "Teksto"; "Gawain"; "Listahan"; "Map"; "Stdout"; "File"; "Program"; "Sandali"; "Panuto"; "Lokasyon-ng-file"]);
  ("tr", ["yeni"; "eşittir:"; "="; "≠"; "tarih:do:"; "cevap-vermek:"; "cevap:ve:"; "cevap:ve:ve:"; "cevap:ve:ve:ve:"; "tip"; "nil?"; "kendim"; "yapmak"; "tamam"; "yanlış:"; "doğru:"; "mesajı:argümanlar:"; "metin"; "numara"; "boole"; "vaka:do:"; "öğrenmek:araçlar:"; "code"; "yinelemeli"; "mola"; "devam-et"; "başka:"; "değil"; "ve:"; "ne-de:"; "veya:"; "ya:veya:"; "kopya"; "+"; "ekle:"; "-"; "subtract:"; "×"; "çarpın-ölçütü:"; "÷"; "bölünür:"; ">"; "≥"; "<"; "≤"; "modulo:"; "düşük"; "yükseltmek"; "yuvarlak"; "kesin"; "kare-kök"; "güç:"; "garip?"; "hatta?"; "pozitif?"; "olumsuz?"; "çiğ"; "arasında:ve:"; "nitelemek:"; "vasıf"; "sin"; "cos"; "tan"; "atan"; "log"; "uzunluk"; "den:uzunluk:"; "Çevre-boşlukları-kaldırın"; "karakter:"; "bulmak:"; "sonuncuyu-bul:"; "şununla:değiştir:"; "bölünmüş:"; "büyük-harf"; "küçük"; "offset:"; "ekleme:"; "uluslararası-numara"; "karma:"; "karakterler"; "içerir:"; "karşılaştırmak:"; "nesne"; "Çalıştırmak"; "uygulamak:"; "geçerlidir:ve:"; "geçerlidir:ve:ve:"; "ayarlayın:değeri:"; "hata:"; "tutmak:"; "prosedür"; "süre:"; "←"; "~"; ";"; "başa-getirebilir:"; "ilkini-al"; "miktar"; "katılmak:"; "sonuncuyu-al"; "durum:"; "en:"; "?"; "çeşit:"; "koyun:at:"; "değiştirin:uzunluk:ile:"; "map:"; "her-biri:"; "asgari"; "maksimum"; "geçen"; "sondan-ikinci"; "ilk"; "ile:doldurun:"; "tarafından:"; "girdileri"; "değerler"; "vardır:"; "yazmak:"; "dur"; "yeni:"; "yol"; "okumak"; "var"; "boyut"; "silmek"; "dizi:"; "argüman:"; "argümanlar"; "ayar:"; "sor"; "ayar:değeri:"; "temiz-bellek"; "hafıza:"; "düzenlilik:"; "Sistem-Komutu:"; "giriş"; "floş"; "hafıza"; "kullanın:"; "şifre-sor"; "son"; "bekle:"; "zaman"; "gün"; "gün:"; "ay"; "ay:"; "yıl"; "yıl:"; "saat"; "saat:"; "dakika"; "dakika:"; "ikinci"; "ikinci:"; "hafta-içi"; "yılın-günü"; "hafta"; "bölge"; "bölgesi:"; "Nesne"; "Sıfır"; "Boole"; "Doğru"; "Yanlış"; "Numara"; "Metin"; "Kod"; "Dizi"; "Liste"; "Stdout"; "Dosya"; "Program"; "An"; "Talimatlar"; "Dosya-konumu"]);
  ("tt", ["яңа"; "тигез:"; "="; "≠"; "on:do:"; "җавап-бир:"; "җавап:һәм:"; "җавап-бир:һәм:һәм:"; "җавап-бир:һәм:һәм:һәм:"; "тибы"; "бушлык?"; "үзем"; "эшлә"; "эшләнде"; "ялган:"; "дөрес:"; "хәбәр:аргументлар:"; "текст"; "саны"; "буле"; "очрак:эшлә:"; "өйрәнү:дигән-сүз:"; "код"; "рекурсив"; "тәнәфес"; "дәвам-итегез"; "бүтән:"; "түгел"; "һәм:"; "да-дә-түгел:"; "яки:"; "яисә:яки:"; "күчереп-алу"; "+"; "өстәргә:"; "-"; "алу:"; "×"; "тапкырлау:"; "÷"; "бүлегез:"; ">"; "≥"; "<"; "≤"; "модуло:"; "түбән"; "биек"; "түгәрәк"; "абсолют"; "квадрат-тамыр"; "көче:"; "сәер?"; "җөп?"; "уңай?"; "тискәре?"; "чимал"; "арасында:һәм:"; "характеристикасы:"; "характеристикасы"; "sin"; "cos"; "tan"; "atan"; "log"; "озынлык"; "дан:озынлык:"; "тирә-юньдәге-урыннарны-бетерегез"; "характер:"; "табу:"; "соңгы:"; "алыштырыгыз:белән:"; "Бүленү:"; "баш-хәреф"; "кечкенә-хәреф"; "офсет:"; "суффикс:"; "халыкара-номер"; "хэш:"; "персонажлар"; "эчендә:"; "чагыштырыгыз:"; "объект-буларак"; "йөгер"; "кулланыгыз:"; "кулланыгыз:һәм:"; "кулланыгыз:һәм:һәм:"; "җыелмасы:кыйммәт:"; "хата:"; "тоту:"; "процедурасы"; "шул-вакытта:"; "←"; "~"; ";"; "префикс:"; "кисү-префикс"; "санагыз"; "кушыл:"; "кисү-суффикс"; "позиция:"; "урын:"; "?"; "сорт:"; "объект:урын:"; "алыштырыгыз:озынлык:белән:"; "исемлек:"; "һәрберсе:"; "минимум"; "максимум"; "соңгы"; "икенче-соңгы"; "башта"; "тутыру:белән:"; "тарафыннан:"; "язмалар"; "кыйммәтләре"; "бар:"; "яз:"; "Тукта"; "яңа:"; "юл"; "укыгыз"; "бар"; "зурлыгы"; "бетерү"; "серияләре:"; "аргумент:"; "аргументлар"; "көйләү:"; "сора"; "көйләү:кыйммәт:"; "чиста-хәтер"; "хәтер:"; "тәртип:"; "система-боерыгы:"; "кертү"; "чистарту"; "хәтер"; "куллану:"; "серсүз-сора"; "ахыр"; "көт:"; "вакыт"; "көн"; "көн:"; "ай"; "ай:"; "ел"; "ел:"; "сәгать"; "сәгать:"; "минут"; "минут:"; "икенче"; "икенче:"; "ял-көне"; "Ел-көне"; "атна"; "зона"; "зона:"; "Объект"; "Бушлык"; "Булан"; "Дөрес"; "Ялган"; "Сан"; "Текст"; "бурыч"; "Серияләре"; "Исемлек"; "Stdout"; "Файл"; "Программа"; "Момент"; "Инструкция"; "Файл-урнашуы"]);
  ("ug", ["new"; "باراۋەر:"; "="; "≠"; "on:do:"; "جاۋاب:"; "جاۋاب:ۋە:"; "جاۋاب:ۋە:ۋە:"; "جاۋاب:ۋە:ۋە:ۋە:"; "تىپى"; "نىل؟"; "ئۆزۈم"; "قىل"; "تاماملاندى"; "false:"; "true:"; "ئۇچۇر:تالاش-تارتىش:"; "string"; "_سان"; "boolean"; "دېلو:قىل:"; "ئۆگىنىش:مەنىسى:"; "code"; "قايتا-قايتا"; "break"; "داۋاملاشتۇرۇش"; "else:"; "ئەمەس"; "ۋە:"; "_ياكى:"; "ياكى:"; "ياكى:ياكى:"; "كۆپەيتىلگەن"; "+"; "add:"; "-"; "ئېلىش:"; "×"; "كۆپەيتىش:"; "÷"; "بۆلۈش:"; ">"; "≥"; "<"; "≤"; "modulo:"; "پول"; "ceil"; "round"; "مۇتلەق"; "كۋادرات-يىلتىز"; "power:"; "غەلىتە؟"; "ھەتتا؟"; "مۇسبەتمۇ؟"; "سەلبىيمۇ؟"; "خام"; "between:and:"; "لاياقەتلىك:"; "سالاھىيەت"; "sin"; "cos"; "tan"; "atan"; "log"; "ئۇزۇنلۇقى"; "from:length:"; "ئەتراپتىكى-بوشلۇقلارنى-چىقىرىۋېتىڭ"; "خاراكتېرى:"; "find:"; "ئاخىرقى:"; "ئالماشتۇرۇش:بىلەن:"; "كېسىش:"; "چوڭ-ھەرپ"; "كىچىك-ھەرپ"; "offset:"; "قوشۇمچە:"; "خەلقئارالىق-نومۇر"; "hash:"; "ھەرپلەر"; "ئۆز-ئىچىگە-ئالىدۇ:"; "سېلىشتۇرۇش:"; "ئوبيېكت_"; "run"; "ئىلتىماس-قىلىڭ:"; "ئىلتىماس-قىلىڭ:ۋە:"; "ئىلتىماس-قىلىڭ:ۋە:ۋە:"; "set:value:"; "خاتالىق:"; "تۇتۇش:"; "تەرتىپ"; "while:"; "←"; "~"; ";"; "prepend:"; "shift"; "count"; "join:"; "pop"; "ئورنى:"; "at:"; "?"; "sort:"; "put:at:"; "ئالماشتۇرۇش:ئۇزۇنلۇقى:بىلەن:"; "_خەرىتە:"; "ھەر-بىرى:"; "ئەڭ-تۆۋەن"; "ئەڭ-چوڭ"; "ئاخىرقى"; "ئىككىنچى-ئاخىرقى"; "بىرىنچى"; "تولدۇرۇش:بىلەن:"; "by:"; "تۈرلەر"; "قىممەت"; "has:"; "يېزىڭ:"; "توختا"; "new:"; "يول"; "ئوقۇش"; "مەۋجۇت"; "size"; "ئۆچۈرۈش"; "list:"; "argument:"; "تالاش-تارتىش"; "تەڭشەش:"; "سوراڭ"; "تەڭشەش:قىممىتى:"; "پاكىز-ئىچكى-ساقلىغۇچ"; "ئىچكى-ساقلىغۇچ:"; "رەتلىك:"; "كومپيۇتېر:"; "input"; "flush"; "ئىچكى-ساقلىغۇچ"; "use:"; "پارول"; "end"; "ساقلاش:"; "ۋاقىت"; "كۈن"; "كۈن:"; "ئاي"; "ئاي:"; "يىل"; "يىل:"; "سائەت"; "سائەت:"; "مىنۇت"; "مىنۇت:"; "ئىككىنچى"; "ئىككىنچى:"; "ھەپتەكۈن"; "يىلكۈن"; "ھەپتە"; "رايون"; "رايون:"; "ئوبيېكت"; "Nil"; "Boolean"; "توغرا"; "يالغان"; "سان"; "String"; "كود"; "تىزىملىك"; "خەرىتە"; "Stdout"; "ھۆججەت"; "پروگرامما"; "دەقىقە"; "كۆرسەتمە"; "ئورنى"]);
  ("uk", ["нові"; "дорівнює:"; "="; "≠"; "on:do:"; "відповісти:"; "відповісти:і:"; "відповісти:і:і:"; "відповісти:і:і:і:"; "тип"; "Ніл?"; "себе"; "робити"; "зроблено"; "помилковий:"; "правда:"; "повідомлення:аргументи:"; "текст"; "число"; "булева"; "випадок:do:"; "вчитися:означає:"; "код"; "рекурсивний"; "перерву"; "продовжувати"; "ще:"; "ні"; "і:"; "ні:"; "або:"; "або:або:"; "копія"; "+"; "додати:"; "-"; "відняти:"; "×"; "помножити на:"; "÷"; "ділити на:"; ">"; "≥"; "<"; "≤"; "модуль:"; "низький"; "висока"; "круглий"; "абсолютний"; "квадратний корінь"; "потужність:"; "непарно?"; "парне?"; "позитивний?"; "негативний?"; "сирий"; "між:та:"; "кваліфікація:"; "кваліфікація"; "sin"; "cos"; "tan"; "atan"; "log"; "довжина"; "від:довжина:"; "видаліть навколишні простори"; "персонаж:"; "знайти:"; "останнє:"; "старий:новий:"; "розділити:"; "великі літери"; "малі літери"; "компенсація:"; "суфікс:"; "міжнародний номер"; "хеш:"; "символів"; "містить:"; "порівняти:"; "як об’єкт"; "бігати"; "застосувати:"; "застосувати:і:"; "застосувати:і:і:"; "set:значення:"; "помилка:"; "виловити:"; "процедура"; "поки:"; "←"; "•"; ";"; "префікс:"; "візьміть перший об'єкт"; "рахувати"; "приєднатися:"; "візьміть останній предмет"; "посада:"; "за адресою:"; "?"; "сортувати:"; "поставити:у:"; "замінити:довжина:на:"; "карта:"; "кожен:"; "мінімум"; "максимум"; "останнім"; "другий останній"; "спочатку"; "заповнювати:чимось:"; "автор:"; "записи"; "значення"; "має:"; "написати:"; "Стоп"; "нове:"; "шлях"; "читати"; "існує"; "розмір"; "видалити"; "список:"; "аргумент:"; "аргументи"; "налаштування:"; "запитати"; "налаштування:значення:"; "чиста пам’ять"; "пам’ять:"; "охайність:"; "cистемна команда:"; "вхід"; "рум’янець"; "пам’ять"; "використання:"; "запитати пароль"; "кінець"; "зачекайте:"; "час"; "день"; "день:"; "місяць"; "місяць:"; "рік"; "рік:"; "година"; "година:"; "хвилина"; "хвилина:"; "другий"; "друге:"; "будній день"; "день року"; "тиждень"; "зона"; "зона:"; "Об’єкт"; "Ніл"; "Булева"; "Правда"; "Помилковий"; "Номер"; "Текст"; "Завдання"; "Список"; "Карта"; "✎"; "Файл"; "Програма"; "Момент"; "Інструкція"; "Розташування файлу"]);
  ("ur", ["نئی"; "مساوی:"; "="; "≠"; "پر:کرنا:"; "جواب:"; "جواب:اور:"; "جواب:اور:اور:"; "جواب:اور:اور:اور:"; "قسم"; "نیل?"; "خود"; "کیا"; "تیار"; "غلط:"; "سچ:"; "پیغام:دلائل:"; "متن-میں-تبدیل-کریں۔"; "نمبر-میں-تبدیل-کریں۔"; "ہاں-یا-نہیں"; "کیس:کرو:"; "سیکھیں:کا-مطلب:"; "لکھیے"; "تکرار"; "توڑ"; "جاری-رہے"; "اور-اگر:"; "نہیں"; "اور:"; "نہ-ہی:"; "یا:"; "ہاں:یا:"; "کاپی"; "+"; "شامل-کریں:"; "-"; "منہا:"; "×"; "سے-ضرب:"; "÷"; "تقسیم-کریں-بذریعہ:"; ">"; "≥"; "<"; "≤"; "ماڈیولو:"; "کم"; "اعلی"; "گول"; "مطلق"; "مربع-جڑ"; "طاقت:"; "ایک-طاق-عدد"; "ایک-مساوی-نمبر"; "مثبت؟"; "منفی"; "کچا"; "درمیان:اور:"; "اہل:"; "قابلیت"; "sin"; "cos"; "tan"; "atan"; "log"; "لمبائی"; "سے:لمبائی:"; "آس-پاس-کی-جگہیں-ہٹا-دیں"; "کردار:"; "مل:"; "آخری:"; "کی-جگہ:کے-ساتھ:"; "تقسیم:"; "بڑے"; "چھوٹے"; "آفسیٹ:"; "ضمیمہ:"; "بین-الاقوامی-نمبر"; "ہیش:"; "حروف"; "مشتمل:"; "موازنہ:"; "کسی-چیز-کے-طور-پر"; "رن"; "درخواست-دیں:"; "لگائیں:اور:"; "لگائیں:اور:اور:"; "سیٹ:ویلیو:"; "غلطی:"; "پکڑو:"; "طریقہکار"; "جبکہ:"; "←"; "~"; ";"; "پریپینڈ:"; "پہلا-عنصر-لے-لو"; "شمار"; "شامل-ہوں:"; "آخری-عنصر-لے-لو"; "پوزیشن:"; "پر:"; "?"; "ترتیب-دیں:"; "ڈال:پر:"; "کی-جگہ:لمبائی:کے-ساتھ:"; "نقشہ:"; "ہر-ایک:"; "کم-سے-کم"; "زیادہ-سے-زیادہ"; "آخری"; "دوسرا-آخری"; "پہلا"; "پُر-کریں:کے-ساتھ:"; "منجانب:"; "اندراجات"; "اقدار"; "ہے:"; "لکھیں:"; "رک-جاؤ"; "نئی:"; "راستہ"; "پڑھیں"; "موجود-ہے"; "سائز"; "حذف-کریں"; "فہرست:"; "دلیل:"; "دلائل"; "ترتیب:"; "پوچھیں"; "ترتیب:قیمت:"; "صاف-میموری"; "یاداشت:"; "صاف-گوئی:"; "نظام-کمانڈ:"; "ان-پٹ"; "فلش"; "یاداشت"; "استعمال:"; "پاس ورڈ"; "ختم"; "انتظار-کرو:"; "وقت"; "دن"; "دن:"; "مہینہ"; "مہینہ:"; "سال"; "سال:"; "گھنٹے"; "گھنٹہ:"; "منٹ"; "منٹ:"; "دوسرا"; "دوسرا:"; "ہفتے-کے-دن"; "سال-کا-دن"; "ہفتہ"; "زون"; "زون:"; "چیز"; "نیل"; "بولین"; "سچ-ہے"; "جھوٹا"; "نمبر"; "متن"; "کوڈ"; "فہرست"; "نقشہ"; "Stdout"; "فائل"; "پروگرام"; "لمحہ"; "ہدایات"; "جگہ"]);
  ("uz", ["yangi"; "teng:"; "="; "≠"; "agar:bo'lsa:"; "javob-bering:"; "javob-bering:va:"; "javob-bering:va:va:"; "javob:va:va:va:"; "turi"; "bo'sh?"; "o'zim"; "qilmoq"; "bajarildi"; "yolg'on:"; "haqiqiy:"; "xabar:dalillar:"; "matn"; "raqam"; "mantiqiy"; "ish:qil:"; "o'rganish:anglatadi:"; "code"; "rekursiv"; "tanaffus"; "davom-eting"; "yana:"; "emas"; "va:"; "ham:"; "yoki:"; "yoxi:yoki:"; "nusxa-ko'chirish"; "+"; "qo'shish:"; "-"; "ayirish:"; "×"; "ko'paytirish:"; "÷"; "bo'lingan:"; ">"; "≥"; "<"; "≤"; "modul:"; "past"; "yuqori"; "dumaloq"; "mutlaq"; "kvadrat-ildiz"; "quvvat:"; "toq?"; "juft?"; "ijobiy?"; "salbiymi?"; "xom"; "orasida:va:"; "malakasi:"; "malaka"; "sin"; "cos"; "tan"; "atan"; "log"; "uzunligi"; "ushbudan:boshlab:"; "atrofdagi-bo'shliqlarni-olib-tashlang"; "belgi:"; "topish:"; "oxirgi:"; "o'rniga:bilan:"; "split:"; "katta-harf"; "kichik-harf"; "ofset:"; "qo'shimcha:"; "xalqaro-raqam"; "xesh:"; "belgilar"; "o'z-ichiga-oladi:"; "solishtiring:"; "ob'ekt"; "yugurish"; "murojaat-qilish:"; "qo'llash:va:"; "qo'llash:va:va:"; "sozlangan:qiymat:"; "xato:"; "ushlash:"; "tartibi"; "vaqt:"; "←"; "~"; ";"; "prefiks:"; "birinchi-ob'ektni-oling"; "hisoblash"; "qo'shilish:"; "oxirgi-ob'ektni-oling"; "lavozimi:"; "da:"; "?"; "saralash:"; "qo'yish:da:"; "almashtirish:uzunligi:bilan:bilan"; "xaritasi:"; "har-biri:"; "eng-kam"; "maksimal"; "oxirgi"; "ikkinchi-oxirgi"; "birinchi"; "to'ldiring:bilan:"; "tomonidan:"; "yozuvlar"; "qiymatlar"; "ega:"; "yozish:"; "to'xta"; "yangi:"; "yo'l"; "o'qing"; "mavjud"; "hajmi"; "o'chirish"; "qator:"; "dalil:"; "dalillar"; "sozlama:"; "so'rash"; "sozlama:qiymat:"; "toza-xotira"; "xotira:"; "tozalik:"; "tizim-Buyrug'i:"; "kiritish"; "flush"; "xotira"; "foydalanish:"; "parol-so'rang"; "oxiri"; "kutmoq:"; "vaqt"; "kun"; "kun:"; "oy"; "oy:"; "yil"; "yil:"; "soat"; "soat:"; "daqiqa"; "daqiqa:"; "ikkinchi"; "ikkinchi:"; "ish-kuni"; "yilning-kuni"; "hafta"; "zonasi"; "zonasi:"; "Ob'ekt"; "Bo'sh"; "Boolean"; "Rost"; "Yolg'on"; "Raqam"; "Matn"; "Kod"; "Qator"; "Ro'yxat"; "Stdout"; "Fayl"; "Dastur"; "Lahza"; "Yo'riqnoma"; "Fayl-joylashuvi"]);
  ("vi", ["mới"; "bằng:"; "="; "≠"; "trên:làm:"; "trả-lời:"; "trả-lời:và:"; "trả-lời:và:và:"; "trả-lời:và:và:và:"; "kiểu"; "không?"; "riêng-tôi"; "làm"; "làm-xong"; "sai:"; "thật:"; "tin-nhắn:đối-số:"; "văn-bản"; "con-số"; "boolean"; "trường-hợp:làm:"; "học:có-nghĩa-là:"; "viết"; "đệ-quy"; "phá-vỡ"; "tiếp-tục"; "khác:"; "không-phải"; "và:"; "cũng-không:"; "hoặc-là:"; "hoặc:hoặc:"; "bản-sao"; "+"; "thêm-vào:"; "-"; "trừ:"; "×"; "nhân-với:"; "÷"; "chia-cho:"; ">"; "≥"; "<"; "≤"; "modulo:"; "làm-tròn-xuống"; "làm-tròn-trở-lên"; "làm-tròn"; "tuyệt-đối"; "căn-bậc-hai"; "quyền-lực:"; "số-lẻ?"; "số-chẵn?"; "tích-cực?"; "tiêu-cực?"; "nguyên"; "giữa:và:"; "đủ-điều-kiện:"; "trình-độ-chuyên-môn"; "sin"; "cos"; "tan"; "atan"; "log"; "chiều-dài"; "từ:chiều-dài:"; "loại-bỏ-không-gian-xung-quanh"; "tính-cách:"; "tìm-thấy:"; "cuối-cùng:"; "thay:thế-bằng:"; "chia-nhỏ:"; "chữ-hoa"; "chữ-thường"; "bù-lại:"; "nối-thêm:"; "số-quốc-tế"; "băm:"; "nhân-vật"; "chứa-đựng:"; "đối-chiếu:"; "vật"; "Bắt-đầu"; "ứng-dụng:"; "áp-dụng:và:"; "áp-dụng:và:và:"; "đặt:giá-trị:"; "lỗi:"; "nắm-lấy:"; "thủ-tục"; "trong-khi:"; "←"; "~"; ";"; "trả-trước:"; "lấy-phần-tử-đầu-tiên"; "đếm"; "tham-gia:"; "lấy-phần-tử-cuối-cùng"; "chức-vụ:"; "tại:"; "?"; "sắp-xếp:"; "đặt:tại:"; "thay-thế:chiều-dài:bằng:"; "sách:"; "mỗi:"; "tối-thiểu"; "tối-đa"; "cuối-cùng"; "thứ-hai-cuối-cùng"; "Đầu-tiên"; "điền:với:"; "bởi:"; "mục"; "giá-trị"; "có:"; "viết:"; "dừng-lại"; "mới:"; "con-đường"; "đọc"; "tồn-tại"; "kích-thước"; "xóa-bỏ"; "loạt:"; "tranh-luận:"; "tranh-luận"; "cài-đặt:"; "hỏi"; "cài-đặt:là:"; "làm-sạch-bộ-nhớ"; "ký-ức:"; "gọn-gàng:"; "lệnh-hệ-thống:"; "đầu-vào"; "tuôn-ra"; "ký-ức"; "sử-dụng:"; "hỏi-mật-khẩu"; "kết-thúc"; "chờ-đợi:"; "thời-gian"; "ngày"; "ngày:"; "tháng"; "tháng:"; "năm"; "năm:"; "giờ"; "giờ:"; "phút"; "phút:"; "thứ-hai"; "thứ-hai:"; "các-ngày-trong-tuần"; "ngày-trong-năm"; "tuần"; "vùng"; "vùng:"; "Vật"; "Không"; "Boolean"; "Thật"; "Sai"; "Con-số"; "Văn-bản"; "Mã"; "Loạt"; "Sách"; "Stdout"; "Tập-tin"; "Chương-trình"; "Chốc-lát"; "Hướng-dẫn"; "Địa-điểm"]);
  ("x3", ["new"; "equals:"; "="; "≠"; "on:do:"; "respond:"; "respond:and:"; "respond:and:and:"; "respond:and:and:and:"; "type"; "Nil?"; "myself"; "do"; "done"; "false:"; "true:"; "message:arguments:"; "string"; "number"; "boolean"; "case:do:"; "learn:means:"; "code"; "recursive"; "break"; "continue"; "else:"; "not"; "and:"; "nor:"; "or:"; "either:or:"; "copy"; "+"; "add:"; "-"; "subtract:"; "×"; "multiply by:"; "÷"; "divide by:"; ">"; "≥"; "<"; "≤"; "modulo:"; "floor"; "ceil"; "round"; "absolute"; "square root"; "power:"; "odd?"; "even?"; "positive?"; "negative?"; "raw"; "between:and:"; "qualify:"; "qualifier"; "sin"; "cos"; "tan"; "atan"; "log"; "length"; "from:length:"; "remove surrounding spaces"; "character:"; "find:"; "last:"; "replace:with:"; "split:"; "uppercase"; "lowercase"; "offset:"; "append:"; "international number"; "hash:"; "characters"; "contains:"; "compare:"; "object"; "run"; "apply:"; "apply:and:"; "apply:and:and:"; "set:value:"; "error:"; "catch:"; "procedure"; "while:"; "←"; "•"; ";"; "prepend:"; "shift"; "count"; "join:"; "pop"; "position:"; "at:"; "?"; "sort:"; "put:at:"; "replace:length:with:"; "map:"; "each:"; "minimum"; "maximum"; "last"; "second last"; "first"; "fill:with:"; "by:"; "entries"; "values"; "has:"; "write:"; "stop"; "new:"; "path"; "read"; "exists"; "size"; "delete"; "list:"; "argument:"; "arguments"; "setting:"; "ask"; "setting:value:"; "clean memory"; "memory:"; "tidiness:"; "shell:"; "input"; "flush"; "memory"; "use:"; "ask password"; "end"; "wait:"; "time"; "day"; "day:"; "month"; "month:"; "year"; "year:"; "hour"; "hour:"; "minute"; "minute:"; "second"; "second:"; "weekday"; "day of the year"; "week"; "zone"; "zone:"; "Object"; "Nil"; "Boolean"; "True"; "False"; "Number"; "String"; "Code"; "List"; "Map"; "✎"; "File"; "Program"; "Moment"; "Command"; "Path"]);
  ("x4", ["nieuw"; "gelĳk:"; "="; "≠"; "bĳ:doen:"; "reageer:"; "reageer:en:"; "reageer:en:en:"; "reageer:en:en:en:"; "type"; "Niets?"; "mĳzelf"; "doen"; "klaar"; "nee:"; "ja:"; "bericht:argumenten:"; "tekst"; "getal"; "ja of nee?"; "geval:doen:"; "leer:betekent:"; "code"; "recursief"; "afbreken"; "doorgaan"; "anders:"; "niet"; "en:"; "noch:"; "of:"; "of:of:"; "kopieer"; "+"; "optellen:"; "-"; "aftrekken:"; "×"; "vermenigvuldig met:"; "÷"; "deel door:"; ">"; "≥"; "<"; "≤"; "modulo:"; "afgerond naar beneden"; "afgerond naar boven"; "afgerond"; "absoluut"; "vierkantswortel"; "tot de macht:"; "oneven?"; "even?"; "positief?"; "negatief?"; "ruw"; "tussen:en:"; "kwalificering:"; "kwalificering"; "sin"; "cos"; "tan"; "atan"; "log"; "lengte"; "van:lengte:"; "verwĳder omliggende spaties"; "letter:"; "zoek:"; "zoek laatste:"; "vervang:door:"; "opsplitsen:"; "hoofdletters"; "kleine letters"; "overslaan:"; "toevoegen:"; "internationaal getal"; "kluts:"; "letters"; "bevat:"; "vergelĳk:"; "object"; "start"; "toepassen:"; "toepassen:en:"; "toepassen:en:en:"; "gebruik:waarde:"; "fout:"; "afhandelen:"; "procedure"; "zolang:"; "←"; "•"; ";"; "invoegen:"; "neem eerste"; "aantal"; "samenvoegen:"; "neem laatste"; "positie:"; "bĳ:"; "?"; "sorteren:"; "zet:bĳ:"; "vervang:lengte:door:"; "lĳst:"; "elk:"; "minimum"; "maximum"; "laatste"; "een-na-laatste"; "eerste"; "vul:met:"; "per:"; "ingangen"; "waarden"; "heeft:"; "schrĳf:"; "stop"; "nieuw:"; "pad"; "lezen"; "bestaat"; "grootte"; "verwĳderen"; "reeks:"; "argument:"; "aantal argumenten"; "instelling:"; "vraag"; "instelling:is:"; "vegen"; "geheugen:"; "geheugenbeheer:"; "opdrachtregel:"; "invoer"; "spoelen"; "geheugen"; "gebruik:"; "vraag wachtwoord"; "einde"; "wacht:"; "tĳd"; "dag"; "dag:"; "maand"; "maand:"; "jaar"; "jaar:"; "uur"; "uur:"; "minuut"; "minuut:"; "seconde"; "seconde:"; "weekdag"; "jaardag"; "week"; "zone"; "zone:"; "Object"; "Niets"; "Ja of Nee"; "Ja"; "Nee"; "Getal"; "Tekst"; "Taak"; "Reeks"; "Lĳst"; "✎"; "Bestand"; "Programma"; "Moment"; "Instructie"; "Bestandslocatie"]);
  ("xh", ["intsha"; "ukulingana:"; "="; "≠"; "pa:yenza:"; "phendula:"; "phendula:kwaye:"; "phendula:kwaye:kwaye:"; "phendula:kwaye:kwaye:kwaye:kwaye:"; "chwetheza"; "engenanto?"; "nam"; "yenza"; "yenziwe"; "buxoki:"; "yinyani:"; "umyalezo:iimpikiswano:"; "umbhalo"; "inani"; "boolean"; "icala:yenza:"; "funda:kuthetha:"; "ibhaliwe"; "ephindayo"; "ikhefu"; "qhubeka"; "enye:"; "hayi"; "kwaye:"; "hayi-kwaye:"; "okanye:"; "okanye:okanye:"; "ikopi"; "+"; "yongeza:"; "-"; "thabatha:"; "×"; "phinda-ngo:"; "÷"; "yahlulahlula:"; ">"; "≥"; "<"; "≤"; "modulo:"; "phantsi"; "phezulu"; "ujikeleze"; "ngokuqinisekileyo"; "iingcambu-ezimbhoxo"; "amandla:"; "elingumnqakathi?"; "elilinganayo?"; "intle?"; "andithi?"; "eluhlaza"; "phakathi:kunye:"; "lungela:"; "isiqinisekiso"; "sin"; "cos"; "tan"; "atan"; "log"; "ubude"; "ukusuka:ubude:"; "susa-iindawo-ezikujikelezileyo"; "umlinganiswa:"; "fumana:"; "okokugqibela:"; "buyisela:nge:"; "umehlulelwano:"; "ibhedi-ephezulu"; "isikhululo-esincinci"; "isuswe:"; "faka:"; "inani-lehlabathi"; "ukukhangela:"; "abalinganiswa"; "iqulethe:"; "thelekisa:"; "into"; "baleka"; "isicelo:"; "faka-isicelo:kwaye:"; "faka-isicelo:kwaye:kwaye:"; "iseti:ixabiso:"; "impazamo:"; "bamba:"; "inkqubo"; "ngelixa:"; "←"; "~"; ";"; "lungiselela:"; "utshintsho"; "ukubala"; "joyina:"; "pop"; "isikhundla:"; "e:"; "?"; "uhlobo:"; "beka:e:"; "buyisela:ubude:nge:"; "uluhlu:"; "nganye:"; "ubuncinci"; "ubuninzi"; "gqibela"; "okwesibini-okokugqibela"; "ekuqaleni"; "zalisa:into:"; "ngu:"; "amangeno"; "iinqobo-ezisemgangathweni"; "ine:"; "bhala:"; "yeka"; "entsha:"; "umendo"; "funda"; "ikhona"; "ubungakanani"; "cima"; "uthotho:"; "ingxabano:"; "iimpikiswano"; "useto:"; "buza"; "ubeko:ixabiso:"; "imemori-ecocekileyo"; "inkumbulo:"; "icocekile:"; "umyalelo-wenkqubo:"; "igalelo"; "flush"; "inkumbulo"; "sebenzisa:"; "buza-iphasiwedi"; "isiphelo"; "yima:"; "ixesha"; "usuku"; "usuku:"; "inyanga"; "inyanga:"; "unyaka"; "unyaka:"; "yure"; "yure:"; "mzuzu"; "mzuzu:"; "isibini"; "isibini:"; "usuku-lweveki"; "usuku-lonyaka"; "iveki"; "umda"; "indawo:"; "Into"; "Engenanto"; "Isigqibo"; "Kuyinyani"; "Ubuxoki"; "Inani"; "Umbhalo"; "Ikhowudi"; "Uthotho"; "Uluhlu"; "Stdout"; "Ifayile"; "Inkqubo"; "Umzuzu"; "Imiyalelo"; "Indawo-ekuyo-ifayile"]);
  ("xx", ["new"; "equals:"; "="; "≠"; "on:do:"; "respond:"; "respond:and:"; "respond:and:and:"; "respond:and:and:and:"; "type"; "Nil?"; "myself"; "do"; "done"; "false:"; "true:"; "message:arguments:"; "string"; "number"; "boolean"; "case:do:"; "learn:means:"; "code"; "recursive"; "break"; "continue"; "else:"; "not"; "&&:"; "nor:"; "||:"; "either:or:"; "copy"; "+"; "add:"; "-"; "subtract:"; "×"; "multiply by:"; "÷"; "divide by:"; ">"; "≥"; "<"; "≤"; "modulo:"; "floor"; "ceil"; "round"; "absolute"; "square root"; "power:"; "odd?"; "even?"; "positive?"; "negative?"; "raw"; "between:and:"; "qualify:"; "qualifier"; "sin"; "cos"; "tan"; "atan"; "log"; "length"; "from:length:"; "remove surrounding spaces"; "character:"; "find:"; "last:"; "replace:with:"; "split:"; "uppercase"; "lowercase"; "offset:"; "append:"; "international number"; "hash:"; "characters"; "contains:"; "compare:"; "object"; "run"; "apply:"; "apply:and:"; "apply:and:and:"; "set:value:"; "error:"; "catch:"; "procedure"; "while:"; "←"; "•"; ";"; "prepend:"; "shift"; "count"; "join:"; "pop"; "position:"; "at:"; "?"; "sort:"; "put:at:"; "replace:length:with:"; "map:"; "each:"; "minimum"; "maximum"; "last"; "second last"; "first"; "fill:with:"; "by:"; "entries"; "values"; "has:"; "write:"; "stop"; "new:"; "path"; "read"; "exists"; "size"; "delete"; "list:"; "argument:"; "arguments"; "setting:"; "ask"; "setting:value:"; "clean memory"; "memory:"; "tidiness:"; "shell:"; "input"; "flush"; "memory"; "use:"; "ask password"; "end"; "wait:"; "time"; "day"; "day:"; "month"; "month:"; "year"; "year:"; "hour"; "hour:"; "minute"; "minute:"; "second"; "second:"; "weekday"; "day of the year"; "week"; "zone"; "zone:"; "Object"; "Nil"; "Boolean"; "True"; "False"; "Number"; "String"; "Code"; "List"; "Map"; "✎"; "File"; "Program"; "Moment"; "Command"; "Path"]);
  ("yak", ["саҥа"; "идентичнэй:"; "="; "≠"; "в:сделать:"; "хоруй:"; "хоруй:и:"; "хоруй:и:и:"; "хоруй:и:и:и:"; "тип"; "Кураанах?"; "бэйэтэ"; "оҥор"; "бүппүт"; "суох:"; "даа:"; "биллэрии:аргумент:"; "к-тексту"; "к-Чыыһыла"; "к-логическому-значению"; "случай:сделать:"; "бил:көрдөрөр:"; "код"; "репрессия"; "аны-наадата-суох"; "салгыы"; "иначе:"; "не"; "и:"; "ни:"; "или:"; "эбэтэр:эбэтэр:"; "скопировать"; "+"; "добавить:"; "-"; "вычесть:"; "×"; "умножить-на:"; "÷"; "разделить-на:"; ">"; "≥"; "<"; "≤"; "модуль:"; "намыһах"; "үрдүк"; "төгүрүк"; "үчүгэй-чыыһыла"; "квадратнай-силис"; "к-кыамталаах:"; "нечетное?"; "четное?"; "положительнай?"; "отрицательный?"; "преобразовать"; "между:и:"; "ойуулаан-ойуулааһын:"; "ойуулаан-ойуулааһын"; "sin"; "cos"; "tan"; "atan"; "log"; "уһуна"; "от:уһуна:"; "тулалыыр-итэҕэстэри-ыраастаа"; "символ-позиция:"; "бул:"; "тиһэх-индекс:"; "солбуй:на:"; "чаастар:"; "верхний-регистр"; "нижний-регистр"; "смести:"; "эбэн-биэр:"; "к-эйэ-Чыыһыла"; "хэш:"; "им-бэлиэлэр"; "содержит:"; "сравнить:"; "объект"; "саҕалаа"; "туһан:"; "туһан:и:"; "туһан:и:и:"; "объект:мантан:"; "алҕас:"; "проблеманы-быһаарыы:"; "процедура"; "пока:"; "←"; "~"; ";"; "префикс:"; "сдвиг"; "счетчик"; "присоединить:"; "тиһэх-элемени-ЭС"; "позиция:"; "в:"; "?"; "сортировкалаа:"; "олоохсуй:в:"; "заменить:длина:на:"; "карта:"; "хас-биирдии-киһи:"; "минимум"; "максимум"; "последний"; "предпоследний"; "первый"; "заполнить:буквой:"; "на:"; "ключи"; "значение"; "имеет:"; "суруй:"; "стоп"; "саҥа-набор:"; "путь"; "аах"; "существует"; "размер"; "ыраас"; "испииһэк:"; "аргумент:"; "количество-аргументов"; "параметр:"; "поле-для-ввода"; "параметр:ис-хоһооно:"; "умнума"; "өй-санаа:"; "подход:"; "система:"; "наплыв"; "сбросить-буфер-вывода"; "өй-санаа"; "инструмент:"; "поле-для-пароля"; "бүтэр-уһуга"; "кэтэс:"; "бириэмэ"; "день"; "день:"; "месяц"; "месяц:"; "год"; "год:"; "час"; "час:"; "минут"; "минут:"; "секунд"; "секунд:"; "рабочий-день"; "день-в-году"; "неделя"; "часовая-зона"; "часовая-зона:"; "Объект"; "Кураанах"; "Логическай"; "даа"; "суох"; "Чыыһыла"; "текст"; "Код"; "Испииһэк"; "Карта"; "Stdout"; "Файл"; "Программа"; "Бириэмэ"; "Хамаанданы-толор"; "Расположение-файла"]);
  ("yi", ["נייַ"; "איז גלייך__:"; "="; "≠"; "אויף:טאָן:"; "ענטפער:"; "ענטפער:און:"; "ענטפער:און:און:"; "ענטפער:און:און:און:"; "טיפּ"; "ניל?"; "זיך"; "טאָן"; "געשען"; "_פאַלש:"; "_אמת:"; "אָנזאָג:טענות:"; "_שטריקל"; "_נומער"; "boolean"; "קאַסע:טאָן:"; "לערן:מיטל:"; "code"; "רעקורסיווע"; "ברעכן"; "פאָרזעצן"; "אַנדערש:"; "ניט"; "און:"; "אדער:"; "אָדער:"; "אדער אדער:__:"; "קאָפּיע"; "+"; "לייג צו:"; "-"; "אַראָפּרעכענען:"; "×"; "מערן מיט:"; "÷"; "צעטיילן לויט:"; ">"; "≥"; "<"; "≤"; "modulo:"; "floor"; "ceil"; "קייַלעכיק"; "אַבסאָלוט"; "קוואַדראַט וואָרצל"; "קראַפט:"; "מאָדנע?"; "אפילו?"; "positive?"; "נעגאַטיוו?"; "רוי"; "צווישן:און:"; "באַגרענעצן:"; "קוואַליפיקאַציע"; "sin"; "cos"; "tan"; "atan"; "log"; "לענג"; "פֿון:לענג:"; "אַראָפּנעמען אַרומיק ספּייסאַז"; "כאַראַקטער:"; "געפֿינען:"; "לעצטע:"; "פאַרבייַטן:מיט:"; "שפּאַלטן:"; "קאַפּירייט"; "לאָווערקאַסע"; "פאָטאָ:"; "צוגעבן:"; "אינטערנאַציאָנאַלע נומער"; "האַש:"; "אותיות"; "כּולל:"; "גלייכן:"; "ווי אַ כייפעץ"; "לויפן"; "צולייגן:"; "צולייגן:און:"; "צולייגן:און:און:"; "שטעלן:ווערט:"; "גרייַז:"; "כאַפּן:"; "פּראָצעדור"; "בשעת:"; "←"; "•"; ";"; "גענוי:"; "shift"; "ציילן"; "פאַרבינדן:"; "קנאַל"; "שטעלע:"; "ביי:"; "?"; "סאָרט:"; "שטעלן:אין:"; "פאַרבייַטן:לענג:מיט:"; "מאַפּע:"; "יעדער:"; "מינימום"; "מאַקסימום"; "לעצטע"; "רגע לעצט"; "ערשטער"; "פּלאָמבירן:מיט:"; "דורך:"; "איינסן"; "וואַלועס"; "האט:"; "שרייב:"; "אָפּשטעל"; "_נייַ:"; "דרך"; "לייענען"; "יגזיסץ"; "גרייס"; "ויסמעקן"; "_רשימה:"; "אַרגומענט:"; "טענות"; "באַשטעטיקן:"; "פרעגן"; "באַשטעטיקן:ווערט:"; "ריין זכּרון"; "זכּרון:"; "ציכטיקייט:"; "קאמפיוטער:"; "אַרייַנשרייַב"; "flush"; "זכּרון"; "נוצן:"; "פּאַראָל"; "סוף"; "וואַרטן:"; "צייַט"; "טאָג"; "_טאָג:"; "חודש"; "_חודש:"; "יאָר"; "_יאָר:"; "שעה"; "_שעה:"; "מינוט"; "מינוט:"; "סעקונדע"; "סעקונדע:"; "וויקדיי"; "טאָג פון די יאָר"; "וואָך"; "זאָנע"; "_זאָנע:"; "כייפעץ"; "ניל"; "Boolean"; "אמת"; "פאַלש"; "נומער"; "שטריקל"; "קאָד"; "רשימה"; "מאפע"; "✎"; "טעקע"; "פּראָגראַם"; "מאָמענט"; "ינסטרוקטיאָן"; "אָרט"]);
  ("yo", ["tuntun"; "awọn-ẹgbẹ:"; "="; "≠"; "lori:ṣe:"; "fesi:"; "fesi:ati:"; "fesi:ati:ati:"; "fesi:ati:ati:ati:ati:"; "oriṣi"; "ofo?"; "funrarami"; "ṣe"; "pari"; "bẹẹko:"; "bẹẹni:"; "ifiranṣẹ:awọn-ariyanjiyan:"; "ọrọ"; "nọmba"; "ariwo"; "ọrọ:ṣe:"; "kọ-ẹkọ:tumọ-si:"; "koodu"; "recursive"; "fọ"; "tẹsiwaju"; "miiran:"; "kii-ṣe"; "ati:"; "tun-ko:"; "tabi:"; "boya:tabi:"; "ẹda"; "+"; "ṣafikun:"; "-"; "yọkuro:"; "×"; "isodipupo-nipasẹ:"; "÷"; "pin-nipasẹ:"; ">"; "≥"; "<"; "≤"; "ẹlẹsẹ:"; "yika-isalẹ"; "yika-soke"; "yika"; "idi"; "square-mule"; "agbara:"; "odd?"; "ani?"; "rere?"; "odi?"; "aise"; "laarin:ati:"; "afijẹẹri:"; "afijẹẹri"; "sin"; "cos"; "tan"; "atan"; "log"; "gigun"; "lati:ipari:"; "yọ-awọn-alafo-agbegbe"; "kikọ:"; "ri:"; "kẹhin:"; "rọpo:pẹlu:"; "pin:"; "agba-nla"; "kekere-kekere"; "àṣìṣe:"; "append:"; "nọmba-kariaye"; "titẹ-sita:"; "ohun-kikọ"; "ni:"; "afiwe:"; "nkan"; "sáré"; "waye:"; "lo:ati:"; "lo:ati:ati:"; "ṣeto:iye:"; "aṣiṣe:"; "yẹ:"; "ilana"; "nigba-ti:"; "←"; "~"; ";"; "sọ-tẹlẹ:"; "gba-akọkọ"; "lati-ka"; "darapo:"; "gba-igbehin"; "ipo:"; "nipa:"; "?"; "too:"; "fi:nipa:"; "rọpo:ipari:pẹlu:"; "akojọ:"; "kọọkan:"; "o-kere-ju"; "o-pọju"; "kẹhin"; "keji-kẹhin"; "akoko"; "fọwọsi:pẹlu:"; "nipasẹ:"; "awọn-titẹ-sii"; "awọn-iye"; "ní:"; "kọ:"; "duro"; "tuntun:"; "ọnà"; "ka"; "wa"; "iwọn"; "paarẹ"; "jara:"; "àríyànjiyàn:"; "awọn-ariyanjiyan"; "ibi-eto:"; "béèrè"; "ibi-eto:iye:"; "mimọ-iranti"; "iranti:"; "irohin:"; "pipaṣẹ-eto:"; "igbewọle"; "fọ-danu"; "iranti"; "lo:"; "beere-ọrọ-igbaniwọle"; "ipari"; "duro:"; "aago"; "ọjọ"; "ọjọ:"; "osù"; "osù:"; "ọdun"; "ọdun:"; "wakati"; "wakati:"; "iseju"; "iseju:"; "ikeji"; "ikeji:"; "osẹ-ọṣẹ"; "ọjọ-ti-ọdun"; "ọsẹ"; "agbegbe-aago"; "agbegbe:"; "Nkan"; "Ofo"; "Bẹẹni-tabi-bẹẹkọ"; "Bẹẹni"; "Bẹẹkọ"; "Nọmba"; "Ọrọ"; "Iṣẹ-ṣiṣe"; "Jara"; "Akojọ"; "Stdout"; "Faili"; "Eto"; "Akoko"; "Awọn-ilana"; "Ipo-faili"]);
  ("zh1", ["新的"; "等於:"; "="; "≠"; "上:做:"; "反應:"; "反應:和:"; "反應:和:和:"; "反應:和:和:和:"; "類型"; "是空的？"; "你自己"; "一系列消息"; "做完了"; "假:"; "真正:"; "消息:參數:"; "做一个文本"; "編號"; "布爾值"; "案例:做:"; "學習:表示:"; "程序代碼"; "遞歸的"; "打破"; "繼續"; "其他:"; "相反的"; "和:"; "也不:"; "要么:"; "這兩個:或之一:"; "複製"; "+"; "加:"; "-"; "減去:"; "×"; "乘以:"; "÷"; "被除以:"; ">"; "≥"; "<"; "≤"; "模數:"; "收缩"; "向上"; "回合"; "絕對"; "平方根"; "求冪:"; "一個奇數？"; "偶數？"; "正？"; "負？"; "生的"; "給出一個:到之間的隨機數:"; "特徵:"; "特徵"; "sin"; "cos"; "tan"; "atan"; "log"; "長度"; "來自:長度:"; "刪除周圍的空間"; "字符:"; "找:"; "持續:"; "用:來代替:"; "分裂:"; "大寫"; "小寫"; "抵消:"; "附加:"; "國際號碼"; "雜湊:"; "人物"; "包含:"; "比較:"; "作為對象"; "開始"; "將邏輯應用於:"; "將邏輯應用於:和:"; "將邏輯應用於:和:和:"; "設定:值:"; "錯誤:"; "抓住:"; "決定"; "而:"; "←"; "~"; ";"; "前置:"; "底部元素"; "計數"; "加入:"; "頂部元素"; "位置:"; "在:"; "?"; "分類:"; "将:设置为:"; "用:替換:長度:"; "列表:"; "每:"; "最低"; "最大值"; "持續"; "最後第二"; "第一"; "數量:餡:"; "通過:"; "參賽作品"; "價值觀"; "已:"; "寫:"; "句末"; "新:"; "路徑"; "讀取數據"; "存在"; "尺寸"; "刪除"; "系列:"; "參數:"; "論點"; "設置:"; "問一個問題"; "設置:值:"; "乾淨的內存"; "記憶:"; "整潔度:"; "系統命令:"; "輸入"; "齊平"; "記憶"; "採用:"; "问密码"; "結束"; "等待:"; "時間"; "哪天"; "天:"; "哪月"; "月:"; "哪年"; "年:"; "小時"; "小時:"; "分鐘"; "分鐘:"; "第二"; "第二:"; "平日"; "一年中的一天"; "哪週"; "哪區"; "區:"; "物體"; "空虛"; "布爾型"; "真正"; "假"; "數"; "文本"; "碼"; "系列"; "列表"; "Stdout"; "文件"; "程序"; "時刻"; "指令"; "檔案位置"]);
  ("zh2", ["新的"; "等于:"; "="; "≠"; "上:做:"; "反应:"; "反应:和:"; "反应:和:和:"; "反应:和:和:和:"; "类型"; "是空的？"; "你自己"; "一系列消息"; "做完了"; "假:"; "真:"; "消息:参数:"; "做一个文本"; "编号"; "布尔值"; "案例:做:"; "学习:表示:"; "程序代码"; "递归"; "打破"; "继续"; "其他:"; "相反的"; "和:"; "也不:"; "要么:"; "或者:或者:"; "复制"; "+"; "加:"; "-"; "减:"; "×"; "乘:"; "÷"; "除:"; ">"; "≥"; "<"; "≤"; "模数:"; "向下取整"; "向上取整"; "四舍五入"; "绝对值"; "平方根"; "求幂:"; "一个奇数？"; "偶数？"; "正？"; "负？"; "原始"; "给出一个:到之间的随机数:"; "特征:"; "特征"; "sin"; "cos"; "tan"; "atan"; "log"; "长度"; "来自:长度:"; "删除周围的空间"; "字符:"; "找:"; "持续:"; "用:来代替:"; "分裂:"; "大写"; "小写"; "抵消:"; "附加:"; "国际号码"; "杂凑:"; "人物"; "包含:"; "比较:"; "作为对象"; "开始"; "将逻辑应用于:"; "将逻辑应用于:和:"; "将逻辑应用于:和:和:"; "设定:值:"; "错误:"; "抓住:"; "决定"; "而:"; "←"; "~"; ";"; "前置:"; "底部元素"; "计数"; "加入:"; "顶部元素"; "位置:"; "在:"; "?"; "分类:"; "把:和:"; "替换:长度:用:"; "列表:"; "每:"; "最低"; "最大值"; "最后"; "倒数第二个"; "首个"; "填充:用:"; "按:"; "条目"; "价值观"; "已:"; "写入:"; "停止"; "新的:"; "路径"; "读取数据"; "存在"; "尺寸"; "删除"; "系列:"; "参数:"; "论点"; "设置:"; "问一个问题"; "设置:值:"; "干净的内存"; "记忆:"; "整洁度:"; "系统命令:"; "输入"; "齐平"; "记忆"; "采用:"; "問密碼"; "结束"; "等待:"; "时间"; "哪天"; "天:"; "月份"; "月份:"; "哪年"; "年:"; "小时"; "小时:"; "分钟"; "分钟:"; "第二"; "第二:"; "平日"; "一年中的一天"; "星期"; "时区"; "时区:"; "物体"; "空虚"; "布尔型"; "真正"; "假"; "数"; "文本"; "码"; "系列"; "列表"; "Stdout"; "文件"; "程序"; "时刻"; "命令"; "档案位置"]);
  ("zu", ["okusha"; "okulinganayo:"; "="; "≠"; "ku:do:"; "phendula:"; "phendula:no:"; "phendula:no:no:no:"; "phendula:no:no:no:no:"; "thayipha"; "lutho?"; "mina"; "yenza"; "kwenziwe"; "cha:"; "yebo:"; "umyalezo:izimpikiswano:"; "umbhalo"; "inombolo"; "yebo-noma-cha"; "icala:yenza:"; "funda:kusho:"; "code"; "rekursiv"; "hlukana"; "qhubeka"; "okunye:"; "hhayi"; "futhi:"; "futhi-hhayi:"; "noma:"; "noma:noma:"; "ikhophi"; "+"; "engeza:"; "-"; "khipha:"; "×"; "phindaphinda-ngo:"; "÷"; "hlukanisa-ngo:"; ">"; "≥"; "<"; "≤"; "modulo:"; "phansi"; "phezulu"; "nxazonke"; "ngokuphelele"; "i-square-root"; "amandla:"; "inombolo?"; "izinombolo?"; "zinhle?"; "engemihle?"; "eluhlaza"; "phakathi:no:"; "isici:"; "isici"; "sin"; "cos"; "tan"; "atan"; "log"; "ubude"; "kusuka:ubude:"; "khipha-izikhala-ezizungezile"; "umlingiswa:"; "thola:"; "okokugcina:"; "buyisela:nge:"; "hlukanisa:"; "isikhafu"; "isikhwama-esincane"; "isisusa:"; "isiphetho:"; "inombolo-yamazwe-omhlaba"; "hashi:"; "izinhlamvu"; "iqukethe:"; "qhathanisa:"; "into"; "gijima"; "faka-isicelo:"; "faka-isicelo:futhi:"; "faka-isicelo:futhi:no:"; "setha:inani:"; "iphutha:"; "bamba:"; "inqubo"; "ngenkathi:"; "←"; "~"; ";"; "isiqalo:"; "thatha-yokuqala"; "ukubala"; "joyina:"; "thatha-yokugcina"; "isikhundla:"; "e:"; "?"; "uhlobo:"; "beka:ngo:"; "buyisela:ubude:nge:"; "imephu:"; "ngamunye:"; "ubuncane"; "ubukhulu"; "okokugcina"; "okwesibili-okokugcina"; "kuqala"; "gcwalisa:nge:"; "ngo:"; "okufakiwe"; "amanani"; "ine:"; "bhala:"; "ima"; "okusha:"; "indlela"; "funda"; "ikhona"; "usayizi"; "susa"; "uhlu:"; "impikiswano:"; "ukuphikisana"; "ukubeka:"; "buza"; "ukubeka:inani:"; "imemori-ehlanzekile"; "inkumbulo:"; "ukulungela:"; "uhlelo:"; "okokufaka"; "thinta"; "inkumbulo"; "sebenzisa:"; "buza-iphasiwedi"; "ukuphela"; "linda:"; "isikhathi"; "usuku"; "usuku:"; "inyanga"; "inyanga:"; "unyaka"; "unyaka:"; "ihora"; "ihora:"; "umzuzu"; "umzuzu:"; "okwesibili"; "okwesibili:"; "usuku-lwesonto"; "usuku-lonyaka"; "isonto"; "izoni"; "indawo:"; "Into"; "Lutho"; "Yebo-noma-cha"; "Yebo"; "Cha"; "Inombolo"; "Umbhalo"; "Ikhodi"; "Uhlu"; "Imephu"; "Stdout"; "Ifayela"; "Uhlelo"; "Okwesikhashana"; "Imiyalo"; "Indawo-yefayela"])].
