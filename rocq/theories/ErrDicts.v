(** The texts of errors in every language (i18n/*/msg.h 8-50). *)
From Coq Require Import List String.
Import ListNotations.
Local Open Scope string_scope.

(** A language; [plain]: CTR_ERR_BOUNDS, DELETE, DIVZERO, EXEC, EXP_ARR, EXP_BLK, EXP_NUM, EXP_STR, FOPEN, NESTING, OOM, RBOOL, RNUM, RSTR, SIPHKEY; [hints]: CTR_ERR_LONG, EXP_COLON, EXP_MSG, EXP_PCLS, EXP_DOT, EXP_KEY,
    EXP_VAR, EXP_RCP, EXP_MSG2, INV_LAS; CTR_ERR_OPEN; CTR_ERR_SYNTAX *)
Record lang := mkL { code : string; plain : list string; hints : list string; open_err : string; syntax_err : string }.
Definition langs : list lang := [
  mkL "af" ["Indeks buite perke"; "Kan nie uitvee nie"; "Deel met nul"; "Kan nie die opdrag uitvoer nie"; "verwag [Lys]."; "verwag [Kode]."; "verwag [Aantal]."; "verwag [String]."; "Fout tydens oopmaak van die lêer"; "Te veel geneste oproepe"; "Uit geheue"; "Moet terugkeer [Boole].
"; "Moet terugkeer [Aantal].
"; "Moet terugkeer [String].
"; "Die sleutel moet presies 16 bytes lank wees"]
    ["Boodskap te lank"; "verwag [:].
"; "verwag [boodskap].
"; "verwag [)].
"; "Die einde van die lyn word verwag"; "Die sleutel moet altyd gevolg word deur ’n eiendomsnaam!"; "Wysende hand moet altyd gevolg word deur veranderlike!"; "’N Ontvanger van ’n boodskap is verwag"; "Die ontvanger kan nie deur die kolon gevolg word nie"; "Ongeldige linkshandige opdrag"]
    "Kan nie oopmaak nie: %s " "Ontleedfout onverwagte %s  ( %s : %d )";
  mkL "am" ["ከዘርፎች ዝርዝር ማውጫ።"; "መሰረዝ አልተቻለም።"; "ክፍፍል በዜሮ ፡፡"; "ትዕዛዙን መፈጸም አልተቻለም።"; "የሚጠበቅ [ዝርዝር]."; "የሚጠበቅ [ኮድ]."; "የሚጠበቅ [ቁጥር]."; "የሚጠበቅ [ሕብረቁምፊ]."; "ፋይሉን ሲከፈት ስህተት ተከስቷል።"; "በጣም ብዙ የነባር ጥሪዎች።"; "ማህደረ ትውስታ ውጭ"; "መመለስ አለበት [ቡሊያን].
"; "መመለስ አለበት [ቁጥር].
"; "መመለስ አለበት [ሕብረቁምፊ].
"; "ቁልፉ በትክክል 16 ባይት መሆን አለበት።"]
    ["በጣም ረጅም መልእክት ፡፡"; "የሚጠበቅ [:].
"; "የሚጠበቅ [መልእክት__].
"; "የሚጠበቅ [)].
"; "የመስመር መጨረሻ ይጠበቃል"; "ቁልፍ ሁል ጊዜ በንብረት ስም መከተል አለበት!"; "የተጠቆመ እጅ ሁል ጊዜ በተለዋዋጭ መከተል አለበት!"; "የመልዕክት ተቀባይን ይጠብቁ ፡፡"; "ተቀባዩ በቅኝ ግዛት መከተል አይችልም።"; "ልክ ያልሆነ ግራ እጅ ምደባ"]
    "ለመክፈት አልተቻለም %s ።" "የተሳሳተ ስህተት ፣ ያልተጠበቀ %s  ( %s : %d )";
  mkL "ar" ["فهرس خارج الحدود"; "تعذر الحذف"; "القسمة على صفر"; "غير قادر على تنفيذ الأمر"; "متوقع [قائمة]."; "متوقع [الشفرة]."; "متوقع [رقم]."; "متوقع [خيط]."; "حدث خطأ أثناء فتح الملف"; "مكالمات متداخلة كثيرة جدًا"; "خارج الذاكرة"; "يجب العودة [منطقي].
"; "يجب العودة [رقم].
"; "يجب العودة [خيط].
"; "يجب أن يبلغ طول المفتاح 16 بايت بالضبط"]
    ["الرسالة طويلة جدًا"; "متوقع [:].
"; "متوقع [رسالة].
"; "متوقع [)].
"; "نهاية السطر المتوقعة"; "يجب أن يتبع المفتاح دائمًا اسم خاصية!"; "يجب أن تتبع اليد التأشير دائمًا بمتغير!"; "يتوقع مستلم الرسالة"; "المستلم لا يمكن أن يتبعه نقطتان"; "مهمة يسار غير صالحة"]
    "Unable to open: %s." "Parse error, unexpected %s ( %s: %d )
";
  mkL "az" ["İndeks hüdudlarından kənarda"; "Silmək olmur"; "Sıfır bölünmə"; "Əmr yerinə yetirmək olmur"; "Gözlənilir [Siyahı]."; "Gözlənilir [Kod]."; "Gözlənilir [Nömrə]."; "Gözlənilir [Sətir]."; "Fayl açarkən səhv oldu"; "Daxil edilmiş zənglər çoxdur"; "Yaddaş dolub"; "Qayıtmalıdır [Boolean].
"; "Qayıtmalıdır [Nömrə].
"; "Qayıtmalıdır [Sətir].
"; "Açar tam olaraq 16 bayt uzunluqda olmalıdır"]
    ["Mesaj çox uzun"; "Gözlənilir [:].
"; "Gözlənilir [mesaj].
"; "Gözlənilir [)].
"; "Gözlənilən xəttin sonu"; "Açar həmişə mülk adı ilə izlənməlidir!"; "İşarə əli həmişə dəyişən tərəfindən təqib edilməlidir!"; "Mesaj alıcısı gözlənilir"; "Alıcını kolon izləyə bilməz"; "Yanlış sol tapşırıq"]
    "Açıla bilmir: %s " "Təhlil xətası gözlənilməz %s  ( %s : %d )";
  mkL "be" ["Індэкс па-за межамі"; "Немагчыма выдаліць"; "Дзяленне на нуль"; "Немагчыма выканаць каманду"; "Чакаецца [Спіс]."; "Чакаецца [Кодэкс]."; "Чакаецца [Нумар]."; "Чакаецца [Радок]."; "Памылка пры адкрыцці файла"; "Занадта шмат укладзеных званкоў"; "Памяць"; "Павінен вярнуцца [Булева].
"; "Павінен вярнуцца [Нумар].
"; "Павінен вярнуцца [Радок].
"; "Ключ павінен быць роўна 16 байт"]
    ["Паведамленне занадта доўга"; "Чакаецца [:].
"; "Чакаецца [паведамленне].
"; "Чакаецца [)].
"; "Чакаецца канец радка"; "Ключ павінен заўсёды сачыць за ўласцівасцю!"; "Указальная рука заўсёды павінна змяняцца зменнай!"; "Чакаецца атрымальнік паведамлення"; "Атрымальнік не можа сачыць за двукроп’е"; "Няправільнае прызначэнне левай рукой"]
    "Немагчыма адкрыць: %s " "Памылка разбору нечаканае %s  ( %s : %d )";
  mkL "bg" ["Индекс извън границите"; "Не може да се изтрие"; "Деление на нула"; "Не може да се изпълни команда"; "Очакван [списък]."; "Очакван [код]."; "Очакван [номер]."; "Очакван [низ]."; "Грешка при отваряне на файла"; "Твърде много вложени обаждания"; "Недостиг на памет"; "Трябва да се върне [Булева].
"; "Трябва да се върне [номер].
"; "Трябва да се върне [низ].
"; "Ключът трябва да е дълъг точно 16 байта"]
    ["Съобщението е твърде дълго"; "Очакван [:].
"; "Очакван [съобщение].
"; "Очакван [)].
"; "Очакван край на реда"; "Ключът винаги трябва да бъде последван от име на свойство!"; "Посочената ръка трябва винаги да бъде променяна от променлива!"; "Очаква се получател на съобщение"; "Получателят не може да бъде последван от двоеточие"; "Невалидна задача на лявата ръка"]
    "Не може да се отвори: %s " "Грешка при анализа неочакван %s  ( %s : %d )";
  mkL "bn" ["সীমা ছাড়িয়ে সূচক।"; "মুছতে অক্ষম।"; "শূন্য দ্বারা বিভাগ"; "কমান্ড কার্যকর করতে অক্ষম।"; "প্রত্যাশিত [তালিকা]."; "প্রত্যাশিত [কোড]."; "প্রত্যাশিত [সংখ্যা]."; "প্রত্যাশিত [দড়ি]."; "ফাইলটি খোলার সময় ত্রুটি।"; "অনেক বেশি নেস্টেড কল।"; "জ্ঞানের বাহিরে"; "ফিরে আসতে হবে [বুলিয়ান].
"; "ফিরে আসতে হবে [সংখ্যা].
"; "ফিরে আসতে হবে [দড়ি].
"; "কীটি অবশ্যই 16 বাইট দীর্ঘ হতে হবে।"]
    ["বার্তাটি খুব দীর্ঘ।"; "প্রত্যাশিত [:].
"; "প্রত্যাশিত [বার্তা].
"; "প্রত্যাশিত [)].
"; "লাইনের প্রত্যাশিত সমাপ্তি"; "কী সর্বদা একটি সম্পত্তি নাম অনুসরণ করা উচিত!"; "পয়েন্টিং হ্যান্ড সবসময় চলক অনুসরণ করা উচিত!"; "কোনও বার্তা প্রাপক প্রত্যাশিত।"; "প্রাপক কোলন অনুসরণ করা যাবে না।"; "অবৈধ বাম হাতের অ্যাসাইনমেন্ট।"]
    "খুলতে অক্ষম: %s ।" "পার্স ত্রুটি অপ্রত্যাশিত %s  ( %s : %d )";
  mkL "bs" ["Indeks izvan granica"; "Brisanje nije moguće"; "Podjela po nuli"; "Nije moguće izvršiti naredbu"; "Očekivano [Lista]."; "Očekivano [Šifra]."; "Očekivano [Broj]."; "Očekivano [Gudački]."; "Pogreška prilikom otvaranja datoteke"; "Previše ugniježđenih poziva"; "Nema memorije"; "Mora se vratiti [Boolean].
"; "Mora se vratiti [Broj].
"; "Mora se vratiti [Gudački].
"; "Ključ mora biti tačan 16 bajta"]
    ["Poruka preduga"; "Očekivano [:].
"; "Očekivano [poruka].
"; "Očekivano [)].
"; "Očekivani kraj linije"; "Ključu uvek treba pratiti ime svojstva!"; "Pokazivačku ruku uvijek treba pratiti varijabla!"; "Očekivani primalac poruke"; "Primalac ne može pratiti dvotočka"; "Nevažeći zadatak s lijeve ruke"]
    "Nije moguće otvoriti: %s " "Pogreška raščlanjivanja neočekivani %s  ( %s : %d )";
  mkL "ca" ["Índex fora de límits"; "No es pot suprimir"; "Divisió a zero"; "No es pot executar la comanda"; "S’esperava [Llista]."; "S’esperava [Codi]."; "S’esperava [Número]."; "S’esperava [Cadena]."; "S’ha produït un error en obrir el fitxer"; "Massa trucades imbricades"; "Sense memòria"; "Ha de tornar [Booleà].
"; "Ha de tornar [Número].
"; "Ha de tornar [Cadena].
"; "La clau ha de tenir exactament 16 bytes"]
    ["Missatge massa llarg"; "S’esperava [:].
"; "S’esperava [missatge].
"; "S’esperava [)].
"; "Final previst de la línia"; "La clau sempre ha d’anar seguida d’un nom de propietat"; "La mà d’assenyalar sempre ha d’anar seguida de variables"; "S’esperava un destinatari del missatge"; "El destinatari no pot ser seguit per dos punts"; "Assignació de mà esquerra no vàlida"]
    "No es pot obrir: %s " "Error d’analisi inesperat %s  ( %s : %d )";
  mkL "ceb" ["Ang indeks gikan sa mga utlanan"; "Dili maabut"; "Gibahin sa zero"; "Dili makahimo sa pagtuman sa sugo"; "Gilauman [Paglista]."; "Gilauman [Code]."; "Gilauman [Numero]."; "Gilauman [Ang String]."; "Sayup samtang nagbukas sa file"; "Daghang mga nareal nga tawag"; "Wala’y panumduman"; "Kinahanglan mobalik [Boolean].
"; "Kinahanglan mobalik [Numero].
"; "Kinahanglan mobalik [Ang String].
"; "Ang yawi kinahanglan nga eksakto nga 16 ka ba nga gitas-on"]
    ["Dugay kaayo ang mensahe"; "Gilauman [:].
"; "Gilauman [mensahe].
"; "Gilauman [)].
"; "Gilauman nga pagtapos sa linya"; "Ang yawi kinahanglan kanunay nga sundan sa usa ka ngalan sa kabtangan!"; "Ang pagpunting sa kamot kinahanglan kanunay nga sundan sa variable!"; "Gipaabut nga usa ka makadawat sa mensahe"; "Ang mga tigdawat dili mahimong sundan sa usok"; "Ang dili husto nga buluhaton sa lefthand"]
    "Dili maablihan: %s " "Sayup sa ginikanan wala damha nga %s  ( %s : %d )";
  mkL "co" ["Indice fora di i limiti"; "Impossibile di eliminà"; "Divisione per zero"; "Impussibule di eseguisce u cumandamentu"; "Pruparatu [Elencu]."; "Pruparatu [Codice]."; "Pruparatu [Numero]."; "Pruparatu [Stringa]."; "Errore mentre apre u file"; "Troppi chjamati nidificati"; "Fora di memoria"; "Ci vole à vultà [Booleanu].
"; "Ci vole à vultà [Numero].
"; "Ci vole à vultà [Stringa].
"; "A chjave deve esse esatta da 16 byte"]
    ["Missaghju troppu longu"; "Pruparatu [:].
"; "Pruparatu [missaghju].
"; "Pruparatu [)].
"; "Finu di a linea prevista"; "A chjave deve esse sempre seguita da un nome di a pruprietà!"; "Indicà a manu sempre deve esse seguita da variàbbili!"; "Pruvitatu un destinatariu di u messagiu"; "U destinatariu ùn pò micca esse seguitu da u colon"; "Un assignamentu à manca manca"]
    "Impossibile d’apre: %s " "Errore di analisi imprevisto %s  ( %s : %d )";
  mkL "cs" ["Index mimo meze."; "Nelze smazat."; "Dělení nulou."; "Nelze spustit příkaz."; "Byl očekáván seznam."; "Byl očekáván blok."; "Bylo očekáváno číslo."; "Byl očekáván řetězec."; "Nastala chyba při otvírání souboru.
"; "Příliš mnoho vnořených volání."; "Došla paměť."; "Musí vracet logickou hodnotu."; "Musí vracet číslo."; "Musí vracet řetězec."; "Klíč musí mít délku přesně 16 bajtů."]
    ["Zpráva je příliš dlouhá.
"; "Byla očekávána dvojtečka.
"; "Byla očekávána zpráva.
"; "Byla očekávána závorka ).
"; "Byla očekávána tečka (.).
"; "Klíč by měl vždy následovat název vlastnosti!
"; "Ukazující ruku by měla vždy následovat proměnná!
"; "Byl očekáván příjemce zprávy.
"; "Příjemce nemůže být následován dvojtečkou.
"; "Neplatné přiřazení na levé straně.
"]
    "Nelze otevřít: %s." "Chyba při analýze, neočekávalo se: %s ( %s: %d )
";
  mkL "cy" ["Mynegai allan o ffiniau"; "Methu dileu"; "Rhannu â sero"; "Methu gweithredu gorchymyn"; "Disgwylir [Rhestr]."; "Disgwylir [Côd]."; "Disgwylir [Rhif]."; "Disgwylir [Llinyn]."; "Gwall wrth agor y ffeil"; "Gormod o alwadau nythu"; "Allan o’r cof"; "Rhaid dychwelyd [Boole].
"; "Rhaid dychwelyd [Rhif].
"; "Rhaid dychwelyd [Llinyn].
"; "Rhaid i’r allwedd fod yn union 16 beit o hyd"]
    ["Neges yn rhy hir"; "Disgwylir [:].
"; "Disgwylir [neges].
"; "Disgwylir [)].
"; "Diwedd y llinell disgwyliedig"; "Dylai allwedd bob amser gael ei ddilyn gan enw eiddo!"; "Dylai newid pwynt ddilyn llaw pwyntio bob amser!"; "Disgwyl derbynnydd neges"; "Ni all y derbynnydd ddilyn y colon"; "Aseiniad diderfyn annilys"]
    "Methu agor: %s " "Gwall bras %s  annisgwyl ( %s : %d )";
  mkL "da" ["Indeks uden for grænserne"; "Kan ikke slette"; "Opdel med nul"; "Kan ikke udføre kommando"; "Forventet [Liste]."; "Forventet [Kode]."; "Forventet [Nummer]."; "Forventet [Snor]."; "Fejl under åbning af filen"; "For mange indlejrede opkald"; "Ikke mere hukommelse"; "Skal vende tilbage [Boolean].
"; "Skal vende tilbage [Nummer].
"; "Skal vende tilbage [Snor].
"; "Nøglen skal være nøjagtigt 16 byte lang"]
    ["Beskeden er for lang"; "Forventet [:].
"; "Forventet [besked].
"; "Forventet [)].
"; "Forventet slutning af linjen"; "Nøglen skal altid følges af et ejendomsnavn!"; "Pegerhånd skal altid følges af variabel!"; "Forventede en meddelelsesmodtager"; "Modtageren kan ikke efterfølges af tyktarmen"; "Ugyldig venstre tildeling"]
    "Kan ikke åbnes: %s " "Analysefejl uventet %s  ( %s : %d )";
  mkL "de" ["Index außerhalb der Grenzen"; "Löschen nicht möglich"; "Durch Null teilen"; "Befehl kann nicht ausgeführt werden"; "Erwartet [Aufführen]."; "Erwartet [Code]."; "Erwartet [Nummer]."; "Erwartet [String]."; "Fehler beim Öffnen der Datei"; "Zu viele verschachtelte Aufrufe"; "Nicht genügend Speicher"; "Muss zurückkehren [Boolescher Wert].
"; "Muss zurückkehren [Nummer].
"; "Muss zurückkehren [String].
"; "Der Schlüssel muss genau 16 Byte lang sein"]
    ["Nachricht zu lang"; "Erwartet [:].
"; "Erwartet [botschaft].
"; "Erwartet [)].
"; "Erwartetes Zeilenende"; "Dem Schlüssel sollte immer ein Eigenschaftsname folgen!"; "Auf die Zeigerhand sollte immer eine Variable folgen!"; "Erwartet einen Nachrichtenempfänger"; "Dem Empfänger kann kein Doppelpunkt folgen"; "Ungültige Zuordnung für die linke Hand"]
    "Öffnen nicht möglich: %s " "Analysefehler unerwartete %s  ( %s : %d )";
  mkL "el" ["Ευρετήριο εκτός των ορίων"; "Δεν είναι δυνατή η διαγραφή"; "Διαίρεση με το μηδέν"; "Δεν είναι δυνατή η εκτέλεση εντολής"; "Αναμενόμενος [Λίστα]."; "Αναμενόμενος [Κώδικας]."; "Αναμενόμενος [Αριθμός]."; "Αναμενόμενος [Σειρά]."; "Σφάλμα κατά το άνοιγμα του αρχείου"; "Πάρα πολλές ένθετες κλήσεις"; "Μη διαθέσιμη μνήμη"; "Πρέπει να επιστρέψετε [Boolean].
"; "Πρέπει να επιστρέψετε [Αριθμός].
"; "Πρέπει να επιστρέψετε [Σειρά].
"; "Το κλειδί πρέπει να έχει μήκος ακριβώς 16 bytes"]
    ["Το μήνυμα είναι πολύ μεγάλο"; "Αναμενόμενος [:].
"; "Αναμενόμενος [μήνυμα].
"; "Αναμενόμενος [)].
"; "Αναμενόμενο τέλος της γραμμής"; "Το κλειδί πρέπει πάντα να ακολουθείται από ένα όνομα ιδιοκτησίας!"; "Το δείχνον χέρι πρέπει πάντα να ακολουθείται από μεταβλητή!"; "Αναμενόμενος παραλήπτης μηνύματος"; "Ο παραλήπτης δεν μπορεί να ακολουθηθεί από το παχύ έντερο"; "Μη έγκυρη αριστεία"]
    "Δεν είναι δυνατό να ανοίξει: %s " "Σφάλμα ανάλυσης μη αναμενόμενο %s  ( %s : %d )";
  mkL "en" ["Index out of bounds."; "Unable to delete."; "Division by zero."; "Unable to execute command."; "Expected list."; "Expected block."; "Expected number."; "Expected string."; "Error while opening the file.
"; "Too many nested calls."; "Out of memory."; "Must return a boolean."; "Must return a number."; "Must return a string."; "Key must be exactly 16 bytes long."]
    ["Message too long.
"; "Expected colon.
"; "Expected message.
"; "Expected ).
"; "Expected a dot (.).
"; "Key should always be followed by a property name!
"; "Pointing hand should always be followed by variable!
"; "Expected a message recipient.
"; "Recipient cannot be followed by colon.
"; "Invalid left-hand assignment.
"]
    "Unable to open: %s." "Parse error, unexpected %s ( %s: %d )
";
  mkL "es" ["Índice fuera de los límites"; "No se puede eliminar"; "División por cero"; "No se puede ejecutar el comando"; "Esperado [Lista]."; "Esperado [Código]."; "Esperado [Número]."; "Esperado [Cuerda]."; "Error al abrir el archivo"; "Demasiadas llamadas anidadas"; "Sin memoria"; "Debe devolver [Booleano].
"; "Debe devolver [Número].
"; "Debe devolver [Cadena].
"; "La clave debe tener exactamente 16 bytes de longitud"]
    ["Mensaje muy largo"; "Esperado [:].
"; "Esperado [mensaje].
"; "Esperado [)].
"; "Fin de línea esperado"; "¡La clave siempre debe ir seguida de un nombre de propiedad!"; "la asignación con >> siempre debe ir seguida de una variable!"; "Se esperaba un destinatario del mensaje"; "El destinatario no puede ser seguido por dos puntos"; "Asignación de mano izquierda no válida"]
    "No se puede abrir: %s " "Error de análisis inesperado %s ( %s : %d )";
  mkL "et" ["Indeks on piiridest väljas"; "Ei saa kustutada"; "Nulliga jagamine"; "Käsu ei õnnestunud täita"; "Oodatud [Loend]."; "Oodatud [Kood]."; "Oodatud [Arv]."; "Oodatud [Keel]."; "Viga faili avamisel"; "Liiga palju pesastatud kõnesid"; "Mälu täis"; "Tuleb tagasi pöörduda [Boolean].
"; "Tuleb tagasi pöörduda [Arv].
"; "Tuleb tagasi pöörduda [Keel].
"; "Võti peab olema täpselt 16 baiti pikk"]
    ["Sõnum on liiga pikk"; "Oodatud [:].
"; "Oodatud [teade].
"; "Oodatud [)].
"; "Eeldatav rea lõpp"; "Võtmele peaks alati järgnema vara nimi!"; "Osutavale käele peaks alati järgnema muutuja!"; "Oodatud oli sõnumi saaja"; "Saajale ei saa käärsool järgneda"; "Vasakpoolne määramine kehtetu"]
    "Ei saa avada: %s " "Sõelumisviga ootamatu %s  ( %s : %d )";
  mkL "eu" ["Indizea mugetatik kanpo"; "Ezin da ezabatu"; "Zatiketa zeroz"; "Ezin da exekutatu komandoa"; "Espero [Zerrenda]."; "Espero [Kodea]."; "Espero [Zenbakia]."; "Espero [String]."; "Errorea gertatu da fitxategia irekitzean"; "Deitutako habia gehiegi"; "Oroimenik gabe"; "Itzuli behar da [Boolearrak].
"; "Itzuli behar da [Zenbakia].
"; "Itzuli behar da [String].
"; "Gakoak 16 byte luze izan behar ditu"]
    ["Mezu luzeegia"; "Espero [:].
"; "Espero [mezua].
"; "Espero [)].
"; "Espero zen lerroaren amaiera"; "Gakoa jabetza-izenarekin jarraitu beharko da beti!"; "Esku seinalea aldagaiarekin jarraitu behar da beti!"; "Espero zen mezuen hartzailea"; "Hartzaileek ezin dute kolon jarraitu"; "Ezkerreko zeregin baliogabea"]
    "Ezin da ireki: %s " "Analisi errorea ustekabeko %s  ( %s : %d )";
  mkL "fa" ["نمایه خارج از محدوده"; "امکان حذف وجود ندارد"; "تقسیم بر صفر"; "اجرای دستور ممکن نیست"; "انتظار می رود [لیست]."; "انتظار می رود [کد]."; "انتظار می رود [عدد]."; "انتظار می رود [رشته]."; "هنگام باز کردن پرونده خطایی رخ داد"; "تماسهای بسیار لانه دار"; "خارج از حافظه"; "باید برگردد [بولی].
"; "باید برگردد [عدد].
"; "باید برگردد [رشته].
"; "کلید باید دقیقاً 16 بایت باشد"]
    ["پیام خیلی طولانی است"; "انتظار می رود [:].
"; "انتظار می رود [پیام].
"; "انتظار می رود [)].
"; "پایان خط مورد انتظار"; "کلید باید همیشه با یک نام خاص دنبال شود!"; "نشان دادن دست باید همیشه با متغیر دنبال شود!"; "از گیرنده پیام انتظار می رود"; "گیرنده نمی تواند توسط روده بزرگ دنبال شود"; "تکلیف نامعتبر"]
    "Unable to open: %s." "Parse error, unexpected %s ( %s: %d )
";
  mkL "fi" ["Hakemisto rajojen ulkopuolella"; "Poisto ei onnistu"; "Nollalla jakaminen"; "Komentoa ei voida suorittaa"; "odotettu [Lista]."; "odotettu [Koodi]."; "odotettu [Määrä]."; "odotettu [Jono]."; "Virhe tiedoston avaamisessa"; "Liian monta sisäkkäistä puhelua"; "Muisti loppu"; "Täytyy palata [Boolean].
"; "Täytyy palata [Määrä].
"; "Täytyy palata [Jono].
"; "Avaimen on oltava tarkalleen 16 tavua pitkä"]
    ["Viesti liian pitkä"; "odotettu [:].
"; "odotettu [viesti].
"; "odotettu [)].
"; "Odotettu rivin loppu"; "Avainta tulee aina seurata omaisuuden nimi!"; "Osoittavaa kättä tulee aina seurata muuttujalla!"; "Odotettiin viestin vastaanottajaa"; "Vastaanottajaa ei voi seurata kaksoispiste"; "Virheellinen vasemmanpuoleinen tehtävä"]
    "Ei voi avata: %s " "Jäsennysvirhe odottamaton %s  ( %s : %d )";
  mkL "fr" ["Index hors limites"; "Impossible de supprimer"; "Division par zéro"; "Impossible d’exécuter la commande"; "Attendu [Liste]."; "Attendu [Code]."; "Attendu [Nombre]."; "Attendu [Chaîne]."; "Erreur lors de l’ouverture du fichier"; "Trop d’appels imbriqués"; "Mémoire insuffisante"; "Doit revenir [Booléen].
"; "Doit revenir [Nombre].
"; "Doit revenir [Chaîne].
"; "La clé doit comporter exactement 16 octets"]
    ["Message trop long"; "Attendu [:].
"; "Attendu [message].
"; "Attendu [)].
"; "Fin de ligne attendue"; "La clé doit toujours être suivie d’un nom de propriété!"; "La main pointée doit toujours être suivie d’une variable!"; "Attendu un destinataire du message"; "Le destinataire ne peut pas être suivi de deux points"; "Affectation gauche non valide"]
    "Impossible d’ouvrir: %s " "Erreur d’analyse %s  inattendu ( %s : %d )";
  mkL "fy" ["Yndeks bûten grinzen"; "Kin net wiskje"; "Ofdieling troch nul"; "Kin it kommando net útfiere"; "Ferwachtsje [Searje]."; "Ferwachtsje [Taak]."; "Ferwachtsje [Nûmer]."; "Ferwachtsje [Tekst]."; "Flater by it iepenjen fan it bestân"; "Tefolle nestele petearen"; "Ut it ûnthâld"; "Moat weromkomme [Beslissing].
"; "Moat weromkomme [Nûmer].
"; "Moat weromkomme [Tekst].
"; "Kaai moat krekt 16 byte lang wêze"]
    ["Berjocht te lang"; "Ferwachtsje [:].
"; "Ferwachtsje [berjocht].
"; "Ferwachtsje [)].
"; "Ferwachte ein fan rigel"; "Kaai moat altyd wurde folge troch in namme fan it pân!"; "Rjochtende hân moat altyd wurde folge troch fariabele!"; "In berjocht ûntfanger ferwachte"; "Untfanger kin net wurde folge troch colon"; "Unjildige linkeropdracht"]
    "Kin net iepenje: %s " "Analyseflater unferwachte %s  ( %s : %d )";
  mkL "ga" ["Innéacs as teorainneacha"; "Ní féidir a scriosadh"; "Roinn faoi nialas"; "Ní féidir ordú a fhorghníomhú"; "Ag súil leis [Liosta]."; "Ag súil leis [Cód]."; "Ag súil leis [Uimhir]."; "Ag súil leis [Teaghrán]."; "Earráid agus an comhad á oscailt"; "An iomarca glaonna neadaithe"; "As chuimhne"; "Ní mór filleadh [Boole].
"; "Ní mór filleadh [Uimhir].
"; "Ní mór filleadh [Teaghrán].
"; "Caithfidh an eochair a bheith díreach 16 bheart ar fhad"]
    ["Teachtaireacht ró-fhada"; "Ag súil leis [:].
"; "Ag súil leis [teachtaireacht].
"; "Ag súil leis [)].
"; "Deireadh na líne a bhfuil súil leis"; "Ba cheart ainm réadmhaoine a leanúint i gcónaí!"; "Ba chóir go mbeadh athróg i gcónaí ag pointeáil láimhe!"; "Ag súil le faighteoir teachtaireachta"; "Ní féidir colon a fháil don fhaighteoir"; "Sannadh neamhbhailí lefthand"]
    "Ní féidir oscailt: %s " "Earráid pharsála %s  gan choinne ( %s : %d )";
  mkL "gd" ["Clàr-amais a-mach à crìochan"; "Cha ghabh cuir às"; "Roinn le neoni"; "Cha ghabh an àithne a chuir an gnìomh"; "An dùil [Liosta]."; "An dùil [Còd]."; "An dùil [Àireamh]."; "An dùil [String]."; "Mearachd fhad ‘s a tha thu a’ fosgladh am faidhle"; "Cus ghlaodh neadachaidh"; "A-mach às a ’chuimhne"; "Feumar tilleadh [Boole].
"; "Feumar tilleadh [Àireamh].
"; "Feumar tilleadh [String].
"; "Feumaidh an iuchair a bhith dìreach 16 bytes a dh ’fhaid"]
    ["Teachdaireachd ro fhada"; "An dùil [:].
"; "An dùil [teachdaireachd].
"; "An dùil [)].
"; "An dùil deireadh na loidhne"; "Bu chòir ainm seilbh a leantainn an-còmhnaidh!"; "Bu chòir caochlaideach a bhith an-còmhnaidh a ’leantainn làmh puing!"; "Bha dùil ri neach-faighinn teachdaireachd"; "Chan urrainn don neach-faighinn colon a leantainn"; "Sònrachadh mì-dhligheach lefthand"]
    "Cha ghabh fhosgladh: %s " "Mearachd gann %s  ris nach robh dùil ( %s : %d )";
  mkL "gl" ["Índice fóra de límites"; "Non se pode eliminar"; "División por cero"; "Non se puido executar o comando"; "Esperado [Lista]."; "Esperado [Código]."; "Esperado [Número]."; "Esperado [Cadea]."; "Erro ao abrir o ficheiro"; "Demasiadas chamadas anidadas"; "Sen memoria"; "Debe volver [Booleano].
"; "Debe volver [Número].
"; "Debe volver [Cadea].
"; "A clave debe ter exactamente 16 bytes"]
    ["Mensaxe demasiado longa"; "Esperado [:].
"; "Esperado [mensaxe].
"; "Esperado [)].
"; "Fin previsto da liña"; "A chave sempre debe ir seguida polo nome dunha propiedade"; "A man apuntada debe ser seguida sempre por variable"; "Un destinatario esperaba"; "O destinatario non pode ser seguido por dous puntos"; "Asignación de esquerda esquerda non válida"]
    "Non se pode abrir: %s " "Erro de análise inesperado %s  ( %s : %d )";
  mkL "gu" ["સીમા બહાર સૂચકાંક"; "કા deleteી નાખવામાં અસમર્થ"; "શૂન્ય દ્વારા વિભાગ"; "આદેશ ચલાવવામાં અસમર્થ"; "અપેક્ષિત [યાદી]."; "અપેક્ષિત [કોડ]."; "અપેક્ષિત [નંબર]."; "અપેક્ષિત [તાર]."; "ફાઇલ ખોલતી વખતે ભૂલ"; "ઘણા બધા નેસ્ટેડ ક callsલ્સ"; "મેમરી બહાર"; "પાછા ફરવું પડશે [બુલિયન].
"; "પાછા ફરવું પડશે [નંબર].
"; "પાછા ફરવું પડશે [તાર].
"; "કી બરાબર 16 બાઇટ લાંબી હોવી જોઈએ"]
    ["સંદેશ ખૂબ લાંબો છે"; "અપેક્ષિત [:].
"; "અપેક્ષિત [સંદેશ].
"; "અપેક્ષિત [)].
"; "અપેક્ષિત લાઇનનો અંત"; "કી હંમેશાં મિલકત નામ દ્વારા અનુસરવા જોઈએ!"; "પોઇંટિંગ હાથ હંમેશાં ચલ દ્વારા અનુસરવામાં આવવો જોઈએ!"; "સંદેશ પ્રાપ્તકર્તાની અપેક્ષા"; "પ્રાપ્તકર્તા કોલોન દ્વારા અનુસરી શકાય નહીં"; "અમાન્ય ડાબેરી સોંપણી"]
    "ખોલવામાં અસમર્થ: %s " "પાર્સ ભૂલ અનપેક્ષિત %s  ( %s : %d )";
  mkL "ha" ["Fitowa daga kan iyaka"; "Ba a iya goge ba"; "Raba da sifili"; "An kasa aiwatar da umarni"; "Ana tsammani [Lissafi]."; "Ana tsammani [_Lambar]."; "Ana tsammani [Lambar]."; "Ana tsammani [Kiɗa]."; "Kuskure yayin bude fayil"; "Kiran da yawa ya yi kyau"; "Ofwaƙwalwa"; "Dole ne ya dawo [Boolean].
"; "Dole ne ya dawo [Lambar].
"; "Dole ne ya dawo [Kiɗa].
"; "Dole maɓallin ya zama daidai 16 bytes tsawo"]
    ["Sakon yayi tsayi da yawa"; "Ana tsammani [:].
"; "Ana tsammani [sako].
"; "Ana tsammani [)].
"; "Endarshen layin da ake tsammani"; "Makulli yakamata a bi ta sunan dukiya!"; "Hannun yatsa koyaushe ya kamata ya bi ta m!"; "Mai sa ran mai karɓar saƙo"; "Mai karɓa ba zai iya bi ta masarautar mallaka ba"; "Ba daidai ba ne aikin da aka ba shi"]
    "Ba a iya budewa ba: %s " "Kuskure na kuskure %s  ( %s : %d ) ba tsammani";
  mkL "haw" ["Papa kuhikuhi mai nā palena"; "ʻAʻole hiki ke holoi"; "Māhele ma ka ʻea"; "ʻAʻole hiki ke hoʻokō i kahi kauoha"; "Ihaia [Palapala]."; "Ihaia [Pāʻālua]."; "Ihaia [Helu]."; "Ihaia [Peke]."; "Hapa i ka wā e wehe ana i ka faila"; "Nui nā kelepono i kāhea ʻia"; "Ma waho o ka hoʻomanaʻo"; "Pono e hoʻi [Boolean].
"; "Pono e hoʻi [Helu].
"; "Pono e hoʻi [Peke].
"; "Pono pono ke kī o 16 mau paona lōʻihi"]
    ["Lā lōʻihi ka leka"; "Ihaia [:].
"; "Ihaia [’ōlelo].
"; "Ihaia [)].
"; "ʻO ka hopena e manaʻo ai ka palena"; "ʻO nā kī e pono e ukali ʻia e kahi inoa waiwai!"; "ʻO ka lima ʻula e pono mau ʻia e ka hoʻololi ʻana!"; "ʻO kahi mea e ʻae ʻia kahi leka"; "ʻAʻole hiki ke ukali ʻia ka mea ʻike e ke koloka"; "Kuhi ʻole hana lefthand"]
    "ʻAʻole hiki ke wehe: %s " "Kekahi hānai nā kūʻai %s  ( %s : %d )";
  mkL "he" ["מדד מחוץ לתחום"; "לא ניתן למחוק"; "חלוקה באפס"; "לא ניתן לבצע את הפקודה"; "צפוי [רשימה]."; "צפוי [קוד]."; "צפוי [מספר]."; "צפוי [מחרוזת]."; "שגיאה בעת פתיחת הקובץ"; "יותר מדי שיחות מקוננות"; "מתוך הזיכרון"; "חייב לחזור [בוליאני].
"; "חייב לחזור [מספר].
"; "חייב לחזור [מחרוזת].
"; "המפתח חייב להיות באורך 16 בתים בדיוק"]
    ["הודעה ארוכה מדי"; "צפוי [:].
"; "צפוי [הודעה].
"; "צפוי [)].
"; "סוף קו צפוי"; "אחרי מפתח תמיד צריך להיות שם מאפיין!"; "יד מצביעת תמיד צריכה להיות אחריה משתנה!"; "צפה לנמען הודעה"; "לא יכול אחריו לקבל את המעי הגס"; "הקצאה מאחור לא חוקית"]
    "Unable to open: %s." "Parse error, unexpected %s ( %s: %d )
";
  mkL "hi" ["इंडेक्स दायरे से बाहर।"; "हटाने में असमर्थ।"; "शून्य से विभाजन।"; "कमांड निष्पादित करने में असमर्थ।"; "अपेक्षित सूची।"; "अपेक्षित ब्लॉक।"; "अपेक्षित संख्या।"; "अपेक्षित शब्द।"; "फ़ाइल खोलते समय त्रुटि। 
"; "बहुत से नेस्टेड कॉल।"; "मेमोरी से बाहर।"; "एक द्विपद वापस करना चाहिए।"; "एक नंबर वापस करना होगा।"; "एक शब्द वापस करना चाहिए।"; "कुंजी बिल्कुल 16 बाइट्स लंबी होनी चाहिए।"]
    ["संदेश बहुत लंबा है। 
"; "अपेक्षित अपूर्ण विराम। 
"; "अपेक्षित संदेश। 
"; "अपेक्षित ) । 
"; "एक डॉट (.) की उम्मीद है। 
"; "कुंजी को हमेशा एक संपत्ति के नाम से पालन किया जाना चाहिए! 
"; "पॉइंटिंग हैंड हमेशा वेरिएबल के बाद होना चाहिए। 
"; "एक संदेश प्राप्तकर्ता की उम्मीद है। 
"; "अपूर्ण विराम द्वारा प्राप्तकर्ता का पालन नहीं किया जा सकता है। 
"; "अमान्य बाएं हाथ का असाइनमेंट। 
"]
    "खोलने में असमर्थ: %s." "पार्स गलती, अनपेक्षित %s ( %s: %d )
";
  mkL "hmn" ["Qhov ntsuas tawm ntawm qhov ciam teb"; "Tsis tuaj yeem rho tawm"; "Muab faib los ntawm xoom"; "Tsis tuaj yeem ua tiav cov lus txib"; "Cia siab tias [Sau]."; "Cia siab tias [Cai]."; "Cia siab tias [Tooj]."; "Cia siab tias [Txoj hlua]."; "Yuam kev thaum qhib cov ntaub ntawv"; "Ntau zes hu"; "Tsis nco"; "Yuav tsum rov qab los [Tub Npis].
"; "Yuav tsum rov qab los [Tooj].
"; "Yuav tsum rov qab los [Txoj hlua].
"; "Qhov tseem ceeb yuav tsum yog raws nraim 16 bytes ntev"]
    ["Lus ntev dhau"; "Cia siab tias [:].
"; "Cia siab tias [cov lus].
"; "Cia siab tias [)].
"; "Cia siab xaus ntawm kab"; "Tus yuam sij yuav tsum nco ntsoov ua raws nrog cov npe khoom ntiag tug!"; "Tus tes taw yuav tsum tau ua raws kev sib txawv!"; "Cia siab tias cov neeg xa xov"; "Tus neeg txais yuav tsis tuaj yeem ua raws txoj hnyuv"; "Ua haujlwm tsis tiav"]
    "Tsis taus qhib: %s " "Parse yuam kev kev cia siab %s  ( %s : %d )";
  mkL "hr" ["Indeks izvan granica"; "Brisanje nije moguće"; "Podjela po nuli"; "Nije moguće izvršiti naredbu"; "Očekivani [Popis]."; "Očekivani [Kodirati]."; "Očekivani [Broj]."; "Očekivani [Niz]."; "Pogreška prilikom otvaranja datoteke"; "Previše ugniježđenih poziva"; "Bez memorije"; "Mora se vratiti [Booleova].
"; "Mora se vratiti [Broj].
"; "Mora se vratiti [Niz].
"; "Ključ mora biti dug točno 16 bajta"]
    ["Poruka je preduga"; "Očekivani [:].
"; "Očekivani [poruka].
"; "Očekivani [)].
"; "Očekivani kraj retka"; "Ključu uvijek treba pratiti ime svojstva!"; "Rukom koja pokazuje treba uvijek pratiti varijablu!"; "Očekivani primatelj poruke"; "Primatelja ne može pratiti dvotočka"; "Nevažeći zadatak lijeve ruke"]
    "Nije moguće otvoriti: %s " "Pogreška analize neočekivani %s  ( %s : %d )";
  mkL "ht" ["Endèks soti nan limit"; "Kapab efase"; "Divizyon pa zewo"; "Kapab egzekite lòd"; "Espere [Lis]."; "Espere [Kòd]."; "Espere [Nimewo]."; "Espere [Fisèl]."; "Erè pandan w ap louvri dosye a"; "Twòp apèl enbrike"; "Soti nan memwa"; "Dwe retounen [Boolean].
"; "Dwe retounen [Nimewo].
"; "Dwe retounen [Fisèl].
"; "Kle yo dwe egzakteman 16 bytes long"]
    ["Mesaj twò lontan"; "Espere [:].
"; "Espere [mesaj].
"; "Espere [)].
"; "Espere nan fen liy lan"; "Kle ta dwe toujou swiv yon non pwopriyete!"; "Montre men ta dwe toujou swiv pa varyab!"; "Espere yon benefisyè mesaj"; "Moun kap resevwa pa ka swiv pa kolon"; "Devwa sou bò goch valab"]
    "Pa kapab louvri: %s " "Erè analiz inatandi %s  ( %s : %d )";
  mkL "hu" ["Index a határokon kívül"; "Nem lehet törölni"; "Osztás nullával"; "Nem sikerült végrehajtani a parancsot"; "Várt [Lista]."; "Várt [Kód]."; "Várt [Szám]."; "Várt [Húr]."; "Hiba a fájl megnyitása közben"; "Túl sok beágyazott hívás"; "Elfogyott a memória"; "Vissza kell térnie [Logikai].
"; "Vissza kell térnie [Szám].
"; "Vissza kell térnie [Húr].
"; "A kulcsnak pontosan 16 bájt hosszúnak kell lennie"]
    ["Az üzenet túl hosszú"; "Várt [:].
"; "Várt [üzenet].
"; "Várt [)].
"; "A sor várható vége"; "A kulcsot mindig egy tulajdonnévnek kell követnie!"; "A mutató kéznél mindig változót kell követnie!"; "Várt egy üzenet címzettje"; "A befogadót nem követheti vastagbél"; "Érvénytelen bal oldali hozzárendelés"]
    "Nem lehet megnyitni: %s " "Elemzési hiba váratlan %s  ( %s : %d )";
  mkL "hy" ["Indուցանիշ սահմաններից դուրս:"; "Անհնար է ջնջել:"; "Բաժանումը զրոյով:"; "Անհնար է կատարել հրամանը:"; "Ակնկալվում է [Ցուցակ]."; "Ակնկալվում է [Կոդ]."; "Ակնկալվում է [Թիվ]."; "Ակնկալվում է [Լարային]."; "Սխալ ֆայլը բացելիս:"; "Բազմաթիվ բույնի զանգեր:"; "Հիշողությունից դուրս"; "Պետք է վերադառնա [Բուլյան].
"; "Պետք է վերադառնա [Թիվ].
"; "Պետք է վերադառնա [Լարային].
"; "Բանալին պետք է լինի ճիշտ 16 բայթ:"]
    ["Հաղորդագրությունը շատ երկար է:"; "Ակնկալվում է [:].
"; "Ակնկալվում է [հաղորդագրություն].
"; "Ակնկալվում է [)].
"; "Գծի սպասվող ավարտ"; "Բանալին միշտ պետք է հետևի սեփականության անվանումը:"; "Նշելով ձեռքը միշտ պետք է հետևի փոփոխական:"; "Հաղորդագրության ստացող է սպասվում:"; "Ստացողին չի կարող հաջորդել աղիք:"; "Անվավեր լեֆենտի հանձնարարություն:"]
    "Անհնար է բացելS:" "Parse- ի սխալ անսպասելի %s  ( %s : %d )";
  mkL "id" ["Indeks di luar batas"; "Tidak dapat menghapus"; "Pembagian dengan nol"; "Tidak dapat menjalankan perintah"; "Diharapkan [Daftar]."; "Diharapkan [Kode]."; "Diharapkan [Jumlah]."; "Diharapkan [Tali]."; "Kesalahan saat membuka file"; "Terlalu banyak panggilan bersarang"; "Kehabisan memori"; "Harus kembali [Boolean].
"; "Harus kembali [Jumlah].
"; "Harus kembali [Tali].
"; "Panjang kunci harus tepat 16 byte"]
    ["Pesan terlalu panjang"; "Diharapkan [:].
"; "Diharapkan [pesan].
"; "Diharapkan [)].
"; "Akhir garis yang diharapkan"; "Kunci harus selalu diikuti oleh nama properti!"; "Tangan menunjuk harus selalu diikuti oleh variabel!"; "Penerima pesan yang diharapkan"; "Penerima tidak dapat diikuti oleh titik dua"; "Tugas kidal tidak valid"]
    "Tidak dapat membuka: %s " "Kesalahan parsing %s  tak terduga ( %s : %d )";
  mkL "ig" ["Ndepụta na oke"; "Enweghi ike ihichapụ"; "Nkewa site na efu"; "Enweghi ike ime iwu"; "Na-atụ anya [Ndepụta]."; "Na-atụ anya [Koodu]."; "Na-atụ anya [Nọmba]."; "Na-atụ anya [Eriri]."; "Njehie mgbe ị na-emeghe faịlụ ahụ"; "Ọtụtụ oku ejila"; "Echefukwala"; "Ga-alaghachi [Boolean].
"; "Ga-alaghachi [Nọmba].
"; "Ga-alaghachi [Eriri].
"; "Igodo ga-abụrịrị iri abụọ na isii ogologo"]
    ["Ozi dị ogologo"; "Na-atụ anya [:].
"; "Na-atụ anya [ozi].
"; "Na-atụ anya [)].
"; "Atụrụ ahụ akara"; "Igodo kwesiri inwe aha obodo mgbe niile!"; "Aka ntinye aka ga-esochi agbanwe!"; "Onye nata ozi ga acho"; "Nnabata agaghị anabata ya"; "Ọrụ enyere aka na-adịghị mma"]
    "Enweghi ike imepe: %s " "Parse error, unexpected %s ( %s: %d )
";
  mkL "is" ["Vísitala utan marka"; "Ekki tókst að eyða"; "Skipting um núll"; "Ekki hægt að framkvæma skipun"; "Búist við [Listi]."; "Búist við [Kóði]."; "Búist við [Fjöldi]."; "Búist við [Strengur]."; "Villa við opnun skráarinnar"; "Of mörg nestuð símtöl"; "Búinn með minni"; "Verður að snúa aftur [Boolean].
"; "Verður að snúa aftur [Fjöldi].
"; "Verður að snúa aftur [Strengur].
"; "Lykillinn verður að vera nákvæmlega 16 bæti að lengd"]
    ["Skilaboð of löng"; "Búist við [:].
"; "Búist við [skilaboð].
"; "Búist við [)].
"; "Búist við lok lína"; "Lykill ætti alltaf að fylgja eignaheiti!"; "Breytandi hönd ætti alltaf að fylgja breytu!"; "Búist var við viðtakanda skilaboða"; "Viðtakanda er ekki hægt að fylgja ristli"; "Ógilt vinstri verkefni"]
    "Ekki tókst að opna: %s " "Rannsóknarvilla óvænt %s  ( %s : %d )";
  mkL "it" ["Indice fuori limite"; "Impossibile eliminare"; "Divisione per zero"; "Impossibile eseguire il comando"; "Previsto [Elenco]."; "Previsto [Codice]."; "Previsto [Numero]."; "Previsto [Corda]."; "Errore durante l’apertura del file"; "Troppe chiamate nidificate"; "Fuori dalla memoria"; "Deve tornare [Booleano].
"; "Deve tornare [Numero].
"; "Deve tornare [Corda].
"; "La chiave deve contenere esattamente 16 byte"]
    ["Messaggio troppo lungo"; "Previsto [:].
"; "Previsto [messaggio].
"; "Previsto [)].
"; "Fine della linea prevista"; "La chiave deve sempre essere seguita da un nome di proprietà!"; "La mano che punta dovrebbe sempre essere seguita da una variabile!"; "Previsto un destinatario del messaggio"; "Il destinatario non può essere seguito dai due punti"; "Assegnazione a sinistra non valida"]
    "Impossibile aprire: %s " "Errore di analisi %s  imprevisto ( %s : %d )";
  mkL "ja" ["範囲外のインデックス。"; "削除できません。"; "ゼロによる除算。"; "コマンドを実行できません。"; "期待される [リスト]."; "期待される [コード]."; "期待される [_数]."; "期待される [ストリング]."; "ファイルを開くときにエラーが発生しました。"; "ネストされた呼び出しが多すぎます。"; "メモリ不足です。"; "戻る必要があります [ブール].
"; "戻る必要があります [_数].
"; "戻る必要があります [ストリング].
"; "キーは正確に16バイトの長さでなければなりません。"]
    ["メッセージが長すぎます。"; "期待される [:].
"; "期待される [メッセージ：__].
"; "期待される [)].
"; "予想される行末"; "キーの後には必ずプロパティ名を付ける必要があります！"; "ポインティングハンドの後には常に変数が必要です！"; "メッセージの受信者が必要です。"; "受信者の後にコロンを続けることはできません。"; "左側の割り当てが無効です。"]
    "開けません：%s。" "解析エラー、予期しない%s（%s：%d）";
  mkL "jv" ["Indeks sing metu saka wates"; "Ora bisa mbusak"; "Divisi miturut nol"; "Ora bisa nglakokake printah"; "Diarep-arep [Dhaptar]."; "Diarep-arep [Kode]."; "Diarep-arep [Nomer]."; "Diarep-arep [Senar]."; "Kesalahan nalika mbukak file"; "Akeh banget telpon"; "Kebak memorine"; "Kudu bali [Boolean].
"; "Kudu bali [Nomer].
"; "Kudu bali [Senar].
"; "Kunci kudu persis 16 bait dawa"]
    ["Pesen dawa banget"; "Diarep-arep [:].
"; "Diarep-arep [pesen].
"; "Diarep-arep [)].
"; "Sisih mburi baris"; "Kunci kudu disusul karo jeneng properti!"; "Tangan sing nuding kudu terus ngetutake variabel!"; "Samesthine panrima pesen"; "Panampa ora bisa diikuti karo usus besar"; "Tugas lefthand sing ora bener"]
    "Mbukak: %s " "Kesalahan parse %s  ( %s : %d )";
  mkL "ka" ["ინდექსი საზღვრებს გარეთ"; "წაშლა შეუძლებელია"; "გაყოფა ნულის მიხედვით"; "ბრძანების შესრულება შეუძლებელია"; "მოსალოდნელია [ჩამოთვლა]."; "მოსალოდნელია [კოდი]."; "მოსალოდნელია [რიცხვი]."; "მოსალოდნელია [სიმებიანი]."; "შეცდომა ფაილის გახსნისას"; "ძალიან ბევრი ბუდეები"; "მეხსიერების გარეშე"; "უნდა დაბრუნდეს [ბულიონი].
"; "უნდა დაბრუნდეს [რიცხვი].
"; "უნდა დაბრუნდეს [სიმებიანი].
"; "გასაღები უნდა იყოს ზუსტად 16 ბაიტი"]
    ["შეტყობინება ძალიან გრძელი"; "მოსალოდნელია [:].
"; "მოსალოდნელია [გაგზავნა].
"; "მოსალოდნელია [)].
"; "ხაზის მოსალოდნელი დასასრული"; "გასაღებას ყოველთვის უნდა მიბაძოთ ქონების სახელი!"; "ხელის აღნიშვნას ყოველთვის უნდა მოჰყვეს ცვლადი!"; "ელოდება შეტყობინების მიღებას"; "მიმღებს ვერ მოჰყვება მსხვილი ნაწლავი"; "არასწორი ლეგენდის დავალება"]
    "გახსნა შეუძლებელია: %s " "პარასკენის შეცდომა მოულოდნელი %s  ( %s : %d )";
  mkL "kk" ["Индекс шектен тыс"; "Жою мүмкін емес"; "Нөлге бөлу"; "Пәрменді орындау мүмкін емес"; "Күтілген [Тізім]."; "Күтілген [Код]."; "Күтілген [Сан]."; "Күтілген [Жол]."; "Файлды ашу кезіндегі қате"; "Кірістірілген қоңыраулар тым көп"; "Жадтан тыс"; "Қайтып келу керек [Бульдік].
"; "Қайтып келу керек [Сан].
"; "Қайтып келу керек [Жол].
"; "Кілттің ұзындығы 16 байт болуы керек"]
    ["Хабар тым ұзақ"; "Күтілген [:].
"; "Күтілген [хабар].
"; "Күтілген [)].
"; "Жолдың күтілетін соңы"; "Кілт әрқашан меншіктің атауынан тұруы керек!"; "Қолды әрқашан айнымалы түрде ұстау керек!"; "Хабар алушы күтіледі"; "Алушыны қос нүктемен қадағалай алмайды"; "Лефтантты тағайындау жарамсыз"]
    "Ашу мүмкін емес: %s " "Талдау қатесі күтпеген %s  ( %s : %d )";
  mkL "km" ["សន្ទស្សន៍ក្រៅព្រំដែន។"; "មិនអាចលុបបានទេ។"; "ចែកដោយសូន្យ។"; "មិនអាចប្រតិបត្តិពាក្យបញ្ជាបានទេ។"; "រំពឹងទុក [បញ្ជី]."; "រំពឹងទុក [លេខកូដ]."; "រំពឹងទុក [ចំនួន]."; "រំពឹងទុក [ខ្សែអក្សរ]."; "មានកំហុសពេលបើកឯកសារ។"; "ការហៅទូរស័ព្ទបានភ្ជាប់គ្នាច្រើនពេក។"; "អស់សតិ។"; "ត្រូវតែត្រឡប់មកវិញ [ប៊ូលីន].
"; "ត្រូវតែត្រឡប់មកវិញ [ចំនួន].
"; "ត្រូវតែត្រឡប់មកវិញ [ខ្សែអក្សរ].
"; "កូនសោត្រូវតែមានប្រវែង ១៦ បៃយ៉ាងពិតប្រាកដ។"]
    ["សារវែងពេក។"; "រំពឹងទុក [:].
"; "រំពឹងទុក [សារ៖__].
"; "រំពឹងទុក [)].
"; "រំពឹងថានឹងបញ្ចប់នៃខ្សែ"; "ពាក្យគន្លឹះគួរតែត្រូវបានអនុវត្តតាមឈ្មោះទ្រព្យសម្បត្តិជានិច្ច!"; "ដៃចង្អុលគួរតែត្រូវបានអនុវត្តតាមអថេរជានិច្ច!"; "រំពឹងថាអ្នកទទួលសារ។"; "អ្នកទទួលមិនអាចត្រូវបានតាមដានដោយពោះវៀនធំទេ។"; "កិច្ចការខាងឆ្វេងមិនត្រឹមត្រូវ។"]
    "មិនអាចបើក៖ %s  ។" "កំហុសញែកមិនរំពឹងទុក %s  ( %s : %d )";
  mkL "kn" ["ಸೂಚ್ಯಂಕ ಮಿತಿ ಮೀರಿದೆ"; "ಅಳಿಸಲು ಸಾಧ್ಯವಿಲ್ಲ"; "ಶೂನ್ಯದಿಂದ ವಿಭಾಗ"; "ಆಜ್ಞೆಯನ್ನು ಕಾರ್ಯಗತಗೊಳಿಸಲು ಸಾಧ್ಯವಿಲ್ಲ"; "ನಿರೀಕ್ಷಿಸಲಾಗಿದೆ [ಪಟ್ಟಿ]."; "ನಿರೀಕ್ಷಿಸಲಾಗಿದೆ [ಕೋಡ್]."; "ನಿರೀಕ್ಷಿಸಲಾಗಿದೆ [ಸಂಖ್ಯೆ]."; "ನಿರೀಕ್ಷಿಸಲಾಗಿದೆ [ಸ್ಟ್ರಿಂಗ್]."; "ಫೈಲ್ ತೆರೆಯುವಾಗ ದೋಷ"; "ಹಲವಾರು ನೆಸ್ಟೆಡ್ ಕರೆಗಳು"; "ಮೆಮೊರಿಯಿಲ್ಲ"; "ಹಿಂತಿರುಗಬೇಕು [ಬೂಲಿಯನ್].
"; "ಹಿಂತಿರುಗಬೇಕು [ಸಂಖ್ಯೆ].
"; "ಹಿಂತಿರುಗಬೇಕು [ಸ್ಟ್ರಿಂಗ್].
"; "ಕೀ ನಿಖರವಾಗಿ 16 ಬೈಟ್‌ಗಳಷ್ಟು ಉದ್ದವಿರಬೇಕು"]
    ["ಸಂದೇಶ ತುಂಬಾ ಉದ್ದವಾಗಿದೆ"; "ನಿರೀಕ್ಷಿಸಲಾಗಿದೆ [:].
"; "ನಿರೀಕ್ಷಿಸಲಾಗಿದೆ [ಸಂದೇಶ].
"; "ನಿರೀಕ್ಷಿಸಲಾಗಿದೆ [)].
"; "ಸಾಲಿನ ನಿರೀಕ್ಷಿತ ಅಂತ್ಯ"; "ಕೀಲಿಯನ್ನು ಯಾವಾಗಲೂ ಆಸ್ತಿ ಹೆಸರಿನಿಂದ ಅನುಸರಿಸಬೇಕು!"; "ತೋಳನ್ನು ಯಾವಾಗಲೂ ವೇರಿಯಬಲ್ ಅನುಸರಿಸಬೇಕು!"; "ಸಂದೇಶ ಸ್ವೀಕರಿಸುವವರನ್ನು ನಿರೀಕ್ಷಿಸಲಾಗಿದೆ"; "ಸ್ವೀಕರಿಸುವವರನ್ನು ಕೊಲೊನ್ ಅನುಸರಿಸಲು ಸಾಧ್ಯವಿಲ್ಲ"; "ಅಮಾನ್ಯ ಎಡಗೈ ನಿಯೋಜನೆ"]
    "ತೆರೆಯಲು ಸಾಧ್ಯವಿಲ್ಲ: %s " "ಪಾರ್ಸ್ ದೋಷ ಅನಿರೀಕ್ಷಿತ %s  ( %s : %d )";
  mkL "ko" ["범위를 벗어난 인덱스"; "삭제할 수 없습니다"; "0으로 나누기"; "명령을 실행할 수 없습니다"; "예상 [명부]."; "예상 [암호]."; "예상 [번호]."; "예상 [_끈]."; "파일을 여는 중 오류가 발생했습니다"; "중첩 된 통화가 너무 많습니다"; "메모리가 부족합니다"; "돌아와야한다 [부울].
"; "돌아와야한다 [번호].
"; "돌아와야한다 [_끈].
"; "키의 길이는 정확히 16 바이트 여야합니다"]
    ["메시지가 너무 깁니다"; "예상 [:].
"; "예상 [메시지].
"; "예상 [)].
"; "예상 라인 끝"; "키 뒤에는 항상 속성 이름이 와야합니다!"; "가리키는 손은 항상 가변적이어야합니다!"; "메시지 수신자를 예상했습니다"; "수신자 뒤에 콜론이 올 수 없습니다"; "왼손잡이가 잘못되었습니다"]
    "열 수 없습니다 : %s " "구문 분석 오류 예기치 않은  %s  ( %s  : %d )";
  mkL "ku" ["Index ji derveyî sînorên"; "Nabe ku were jêbirin"; "Dabeşa bi zero"; "Ferman nikare nekeve"; "Li bende bûn [Rêzok]."; "Li bende bûn [Navê dizî]."; "Li bende bûn [Jimare]."; "Li bende bûn [Ben]."; "Whileewtî dema ku pelê vekir"; "Gelek banga neşopandî"; "Ji bîranînê"; "Pêdivî ye ku vegere [Boolean].
"; "Pêdivî ye ku vegere [Jimare].
"; "Pêdivî ye ku vegere [Ben].
"; "Pêdivî ye ku mifteya bi dirêjahî 16 bayt be"]
    ["Peyam pir dirêj e"; "Li bende bûn [:].
"; "Li bende bûn [agah].
"; "Li bende bûn [)].
"; "Dawiya bendewariyê"; "Miftî divê her gav bi navgîniyek xwedan li pey be!"; "Destê destnîşan kirin divê her gav bi gavavêtinê were meşandin!"; "Pêşniyarek wergirê peyamek hêvî dikir"; "Meriv nekare bi kolonî were pey"; "Cîgirê lefê ya nediyar"]
    "Neketiye: %s " "Errorewtiya Parse bêkêmahî %s  ( %s : %d )";
  mkL "ky" ["чегинен чыгып Index"; "жок кылуу мүмкүн болбой жатат"; "Нөлгө бөлүү"; "буйругун аткарууга мүмкүн болбой жатат"; "-чачын күтүлбөйт [тизме]."; "-чачын күтүлбөйт [Code]."; "-чачын күтүлбөйт [сан]."; "-чачын күтүлбөйт [аркан]."; "Error ачып жатканда"; "Өтө көп камтылган чалуулар"; "Эс-тутуму жетпей калды"; "керек кайтып [логикалык].
"; "керек кайтып [сан].
"; "керек кайтып [аркан].
"; "Негизги так 16 узак байт болушу керек"]
    ["Билдирүү өтө узун"; "-чачын күтүлбөйт [:].
"; "-чачын күтүлбөйт [билдирүү].
"; "-чачын күтүлбөйт [)].
"; "сызыктын Күтүлгөн аяктоо"; "Ачыш үчүн ар дайым бир менчик аты менен коштолушу керек!"; "колун көрсөтүп дайыма өзгөрмөлүү менен коштолушу керек!"; "бир кабар алуучу-чачын күтүлбөйт"; "Алуучу чекит кийин мүмкүн эмес"; "Жараксыз lefthand тапшырма"]
    "ачылбай жатат:с" "Талдоо катасы күтүлбөгөн %s (%s :%d г)";
  mkL "lb" ["Index aus Grenzen"; "Kann net läschen"; "Divisioun duerch Null"; "Kann de Kommando net ausféieren"; "Erwaart [Lëscht]."; "Erwaart [Code gitt]."; "Erwaart [Zuel]."; "Erwaart [String]."; "Feeler beim Opmaache vun der Datei"; "Ze vill nestéiert Appellen"; "Aus Erënnerung"; "Misst zréck [Boolschen].
"; "Misst zréck [Zuel].
"; "Misst zréck [String].
"; "Schlëssel muss genau 16 Byt laang sinn"]
    ["Message ze laang"; "Erwaart [:].
"; "Erwaart [noriicht].
"; "Erwaart [)].
"; "Erwaart Enn vun der Linn"; "Schlëssel sollt ëmmer mat engem Besëtznumm gefollegt ginn!"; "Punktend Hand soll ëmmer verännerlech gefollegt sinn!"; "Erwaart e Message Empfänger"; "Empfänger kënnen net op Colon gefollegt ginn"; "Ongëlteg lénks Aufgab"]
    "Kann net opmaachen: %s " "Parse Feeler onerwaart %s  ( %s : %d )";
  mkL "lo" ["ດັດສະນີອອກຈາກຂອບເຂດ"; "ບໍ່ສາມາດລຶບໄດ້"; "ແບ່ງຕາມສູນ"; "ບໍ່ສາມາດປະຕິບັດ ຄຳ ສັ່ງໄດ້"; "ຄາດວ່າ [ລາຍຊື່]."; "ຄາດວ່າ [ລະຫັດ]."; "ຄາດວ່າ [ເລກ]."; "ຄາດວ່າ [ຊ່ອຍແນ່]."; "ມີຂໍ້ຜິດພາດໃນຂະນະເປີດເອກະສານ"; "ມີການຮວບຮວມການໂທຫຼາຍເກີນໄປ"; "ໝົດ ຄວາມຊົງ ຈຳ"; "ຕ້ອງກັບຄືນມາ [ບົວບານ].
"; "ຕ້ອງກັບຄືນມາ [ເລກ].
"; "ຕ້ອງກັບຄືນມາ [ຊ່ອຍແນ່].
"; "ຄີຕ້ອງມີຄວາມຍາວ 16 ໄບ"]
    ["ຂໍ້ຄວາມຍາວເກີນໄປ"; "ຄາດວ່າ [:].
"; "ຄາດວ່າ [ຂໍ້ຄວາມ].
"; "ຄາດວ່າ [)].
"; "ຄາດວ່າຈະສິ້ນສຸດຂອງເສັ້ນ"; "ຫຼັກຄວນຕິດຕາມດ້ວຍຊື່ຂອງຊັບສິນ!"; "ມືຊີ້ຄວນຕິດຕາມດ້ວຍຕົວປ່ຽນແປງສະ ເໝີ!"; "ຄາດວ່າຈະເປັນຜູ້ຮັບຂໍ້ຄວາມ"; "ຜູ້ຮັບບໍ່ສາມາດຕິດຕາມດ້ວຍຈໍ້າສອງເມັດ"; "ການມອບ ໝາຍ ຊ້າຍມືທີ່ບໍ່ຖືກຕ້ອງ"]
    "ບໍ່ສາມາດເປີດ: %s " "ຜິດພາດ ບໍ່ຄາດຄິດ %s  ( %s : %d )";
  mkL "lt" ["Indeksas už ribų."; "Neįmanoma ištrinti."; "Dalyba iš nulio."; "Neįmanoma įvykdyti komandos."; "Tikėtasi sąrašo."; "Tikėtasi bloko."; "Tikėtasi skaičiaus."; "Tikėtasi simbololių eilutės."; "Klaida atidarant failą.
"; "Per daug įdėtūjų kvietinių."; "Neužtenka atminties."; "Turi grąžinti loginę reikšmę."; "Turi grąžinti skaičių."; "Turi grąžinti simbolių eilutę."; "Raktas privalo būti lygiai 16 bitų ilgumo."]
    ["Žinutė per ilga.
"; "Tikėtasi dvitaškio.
"; "Tikėtasi žinutės.
"; "Tikėtasi ).
"; "Tikėtasi taško (.).
"; "Raktą turėtų visad sekti savybės vardas!
"; "Rodančią ranką visad turėtų sekti kintamasis!
"; "Tikėtasi žinutės gavėjo.
"; "Gavėjo negali sekti dvitaškis.
"; "Negalimas kairės rankos priskyrimas.
"]
    "Neįmanoma atidaryti: %s." "Analizės klaida, netikėtas %s ( %s: %d )
";
  mkL "lv" ["Indekss ārpus robežām"; "Nevar izdzēst"; "Dalīšana ar nulli"; "Nevar izpildīt komandu"; "Paredzams [Saraksts]."; "Paredzams [Kods]."; "Paredzams [Skaits]."; "Paredzams [Stīgu]."; "Kļūda atverot failu"; "Pārāk daudz ligzdotu zvanu"; "Pietrūkst atmiņas"; "Jāatgriežas [Būla].
"; "Jāatgriežas [Skaits].
"; "Jāatgriežas [Stīgu].
"; "Atslēgai jābūt tieši 16 baitu garai"]
    ["Ziņojums ir pārāk garš"; "Paredzams [:].
"; "Paredzams [ziņojums].
"; "Paredzams [)].
"; "Paredzamais līnijas beigas"; "Atslēgai vienmēr jāseko īpašuma nosaukumam!"; "Rādītājai vienmēr seko mainīgais!"; "Gaidīts ziņojuma saņēmējs"; "Saņēmējam nevar sekot kolu"; "Nederīgs kreisās puses piešķīrums"]
    "Nevar atvērt: %s " "Parsēšanas kļūda negaidīts %s  ( %s : %d )";
  mkL "mg" ["Index amin’ny fetra"; "Tsy afaka mamafa"; "Mizara araka ny aotra"; "Tsy afaka nanatanteraka baiko"; "andrasana [List]."; "andrasana [Code]."; "andrasana [Number]."; "andrasana [String]."; "Hadisoana raha manokatra ny rakitra"; "Antso an-telefaona maro loatra"; "Tsaroana"; "Tsy maintsy miverina [Boolean].
"; "Tsy maintsy miverina [Number].
"; "Tsy maintsy miverina [String].
"; "Ny lakile dia tokony ho 16 baoty lava fotsiny"]
    ["Hafatra loatra ny hafatra"; "andrasana [:].
"; "andrasana [hafatra].
"; "andrasana [)].
"; "Fiandrasana andalana"; "Ny lakile dia tokony ho arahan’ny anarany foana!"; "Ny tànana manondro dia tokony ho arahana foana!"; "Andrasana hafatra"; "Ny mpanjifa dia tsy azon’ny kolonely"; "Asa fanendrena tsy mety"]
    "Tsy afaka manokatra: %s " "Hadisoan’ny ray aman-dreny tsy ampoizina %s  ( %s : %d )";
  mkL "mi" ["Tuhinga ka whai mai"; "Kaore e taea te muku"; "Te wehenga ma te kore"; "Kaore e taea te whakahaere whakahau"; "Tira [Raarangi]."; "Tira [Waehere]."; "Tira [Tau]."; "Tira [Manatu]."; "Te he i te whakatuwhera i te konae"; "He maha nga wa kei te karanga"; "Te kore whakamahara"; "Me hoki te hokinga mai [Poei].
"; "Me hoki te hokinga mai [Tau].
"; "Me hoki te hokinga mai [Manatu].
"; "Ko te matua me tino 16 nga paita te roa"]
    ["Te roa o te panui"; "Tira [:].
"; "Tira [karere].
"; "Tira [)].
"; "Tuhinga o mua"; "Ko te matua me whai tonu i tetahi ingoa taonga!"; "Ko te ringaringa tohu me whai tonu i nga rereke!"; "Tiro i tetahi kaiwhiwhi karere"; "Kaore e taea e te kaiwhiwhi te whai i te kopae"; "Ko te whakaurunga mo te riu korekore"]
    "Kaore e taea te whakatuwhera: %s " "He hapa a te Parse kaore i te manakohia te %s  ( %s : %d )";
  mkL "mk" ["Индекс надвор од границите"; "Не можам да ја избришам"; "Поделбата на нула"; "Не може да се изврши командата"; "Очекувано [Листа]."; "Очекувано [Код]."; "Очекувано [Број]."; "Очекувано [Низа]."; "Грешка при отворањето на датотеката"; "Премногу вгнездени повици"; "Нема меморија"; "Мора да се врати [Булеан].
"; "Мора да се врати [Број].
"; "Мора да се врати [Низа].
"; "Клучот мора да биде долг точно 16 бајти"]
    ["Порака премногу долго"; "Очекувано [:].
"; "Очекувано [порака].
"; "Очекувано [)].
"; "Очекуван крај на линијата"; "Клучот секогаш треба да го следи името на имотот!"; "Покажувачката рака секогаш треба да ја следи променлива!"; "Очекуван примач на порака"; "Примачот не може да го следи дебелото црево"; "Невалидна задача за летање"]
    "Не може да се отвори: %s " "Грешка при анализирање неочекувани %s  ( %s : %d )";
  mkL "ml" ["സൂചിക പരിധിക്ക് പുറത്താണ്"; "ഇല്ലാതാക്കാൻ കഴിയില്ല"; "പൂജ്യം കൊണ്ട് ഹരണം"; "കമാൻഡ് എക്സിക്യൂട്ട് ചെയ്യാൻ കഴിയില്ല"; "പ്രതീക്ഷിച്ചു [പട്ടിക]."; "പ്രതീക്ഷിച്ചു [കോഡ്]."; "പ്രതീക്ഷിച്ചു [നമ്പർ]."; "പ്രതീക്ഷിച്ചു [സ്ട്രിംഗ്]."; "ഫയൽ തുറക്കുമ്പോൾ പിശക്"; "വളരെയധികം നെസ്റ്റഡ് കോളുകൾ"; "മെമ്മറി തീർന്നു"; "മടങ്ങണം [ബൂളിയൻ].
"; "മടങ്ങണം [നമ്പർ].
"; "മടങ്ങണം [സ്ട്രിംഗ്].
"; "കീ കൃത്യമായി 16 ബൈറ്റുകൾ നീളമുള്ളതായിരിക്കണം"]
    ["സന്ദേശം ദൈർഘ്യമേറിയതാണ്"; "പ്രതീക്ഷിച്ചു [:].
"; "പ്രതീക്ഷിച്ചു [സന്ദേശം].
"; "പ്രതീക്ഷിച്ചു [)].
"; "വരിയുടെ പ്രതീക്ഷിച്ച അവസാനം"; "കീ എല്ലായ്‌പ്പോഴും ഒരു പ്രോപ്പർട്ടി നാമം പിന്തുടരണം!"; "ചൂണ്ടുന്ന കൈ എല്ലായ്പ്പോഴും വേരിയബിൾ പിന്തുടരണം!"; "ഒരു സന്ദേശ സ്വീകർത്താവ് പ്രതീക്ഷിച്ചു"; "സ്വീകർത്താവിനെ വൻകുടൽ പിന്തുടരാനാവില്ല"; "അസാധുവായ ഇടത് അസൈൻമെന്റ്"]
    "തുറക്കാനായില്ല: %s " "പാഴ്‌സ് പിശക് അപ്രതീക്ഷിത %s  ( %s : %d )";
  mkL "mn" ["Индекс хязгаараас хэтэрсэн байна"; "Устгах боломжгүй байна"; "Тэгээр хуваах"; "Тушаалыг гүйцэтгэх боломжгүй байна"; "Хүлээгдэж буй [Жагсаалт]."; "Хүлээгдэж буй [Код]."; "Хүлээгдэж буй [Тоо]."; "Хүлээгдэж буй [Мөр]."; "Файлыг нээх үед алдаа гарлаа"; "Хэт олон дуудлага хийгдсэн байна"; "Санах ойноос хэтэрсэн"; "Буцах ёстой [Boolean].
"; "Буцах ёстой [Тоо].
"; "Буцах ёстой [Мөр].
"; "Товч нь яг 16 байт байх ёстой"]
    ["Мессеж хэт урт байна"; "Хүлээгдэж буй [:].
"; "Хүлээгдэж буй [мессеж].
"; "Хүлээгдэж буй [)].
"; "Хүлээгдэж буй төгсгөл"; "Түлхүүр үг нь өмчийн нэрийг дагаж мөрдөх ёстой!"; "Гараа заагчийг үргэлж хувьсагч дагаж мөрдөх ёстой!"; "Зурвас хүлээн авагч хүлээгдэж байна"; "Хүлээн авагч нь бүдүүн гэдгээр дагаж болохгүй"; "Leftthand даалгавар буруу байна"]
    "Нээх боломжгүй байна: %s " "Хөөх алдаа гэнэтийн %s  ( %s : %d )";
  mkL "mo" ["index ūt kē būnds"; "unable sta delete"; "division bj zero"; "unable sta execute command"; "expected [List]."; "expected [Code]."; "expected [Number]."; "expected [Striŋ]."; "error łhile openiŋ że file"; "tū manj nested calls"; "out kē memorj"; "must return [Būlean].
"; "must return [Number].
"; "must return [Striŋ].
"; "kej must vĕ exactlj 16 bjtes loŋ"]
    ["message tū loŋ"; "expected [:].
"; "expected [message].
"; "expected [)].
"; "expected end kē line"; "kej šūld alłajs vĕ follołed bj so propertj kēna!"; "pointiŋ kom šūld alłajs vĕ follołed bj variable!"; "expected so message recipient"; "recipient cannot vĕ follołed bj colon"; "invalid lefżand assignment"]
    "unable sta open:%s" "parse error unexpected %s ( %s:%d )";
  mkL "mr" ["मर्यादा बाहेर निर्देशांक"; "हटविण्यात अक्षम"; "शुन्याने भागणे"; "कमांड कार्यान्वित करण्यात अक्षम"; "अपेक्षित [यादी]."; "अपेक्षित [कोड]."; "अपेक्षित [संख्या]."; "अपेक्षित [स्ट्रिंग]."; "फाईल उघडताना त्रुटी"; "बर्‍याच नेस्टेड कॉल"; "लक्षात राहिले नाही"; "परत पाहिजे [बुलियन].
"; "परत पाहिजे [संख्या].
"; "परत पाहिजे [स्ट्रिंग].
"; "की नक्की 16 बाइट लांबीची असणे आवश्यक आहे"]
    ["संदेश खूप लांब आहे"; "अपेक्षित [:].
"; "अपेक्षित [संदेशः__].
"; "अपेक्षित [)].
"; "अपेक्षित ओळीचा शेवट"; "की नेहमी प्रॉपर्टीच्या नावानेच पाळली पाहिजे!"; "पॉइंटिंग हात नेहमीच चल नंतर असावा!"; "संदेश प्राप्तकर्त्याची अपेक्षा आहे"; "प्राप्तकर्त्यास कोलन पाठविता येत नाही"; "अवैध डावीकडील असाइनमेंट"]
    "उघडण्यात अक्षम: %s " "विश्लेषित त्रुटी अनपेक्षित %s  ( %s : %d )";
  mkL "ms" ["Indeks tidak terikat"; "Tidak dapat memadam"; "Bahagian oleh sifar"; "Tidak dapat melaksanakan perintah"; "Dijangkakan [Senarai]."; "Dijangkakan [Kod]."; "Dijangkakan [Nombor]."; "Dijangkakan [Tali]."; "Ralat semasa membuka fail"; "Terlalu banyak panggilan bersarang"; "Lupa"; "Mesti kembali [Boolean].
"; "Mesti kembali [Nombor].
"; "Mesti kembali [Tali].
"; "Kunci mestilah betul-betul 16 bait panjang"]
    ["Mesej terlalu lama"; "Dijangkakan [:].
"; "Dijangkakan [mesej].
"; "Dijangkakan [)].
"; "Akhir baris yang dijangka"; "Kunci harus sentiasa diikuti oleh nama harta!"; "Tangan penunjuk harus selalu diikuti oleh pembolehubah!"; "Menjangkakan penerima mesej"; "Penerima tidak boleh diikuti oleh kolon"; "Tugasan yang tidak sah"]
    "Tidak dapat membuka: %s " "Ralat parse tidak dijangka %s  ( %s : %d )";
  mkL "mt" ["Indiċi barra mill-limiti"; "Mhux possibbli li titħassar"; "Diviżjoni żero"; "Mhux possibbli li tesegwixxi kmand"; "Mistenni [Lista]."; "Mistenni [Kodiċi]."; "Mistenni [Numru]."; "Mistenni [String]."; "Żball waqt li tiftaħ il-fajl"; "Wisq sejħiet imbarazz"; "Minn memorja"; "Trid tirritorna [Boolean].
"; "Trid tirritorna [Numru].
"; "Trid tirritorna [String].
"; "Iċ-ċavetta għandha tkun twila eżattament 16 bytes"]
    ["Messaġġ twil wisq"; "Mistenni [:].
"; "Mistenni [messaġġ].
"; "Mistenni [)].
"; "Tmiem tal-linja mistenni"; "Iċ-ċavetta għandha dejjem tkun segwita minn isem tal-propjetà!"; "L-idejn li tipponta għandha dejjem tkun segwita minn varjabbli!"; "Mistenni li jirċevi messaġġ"; "Ir-riċevitur ma jistax jiġi segwit minn colon"; "Assenjazzjoni tax-xellug mhux valida"]
    "Ma jistax jinfetaħ: %s " "Żball ta ’analizzar mhux mistenni %s  ( %s : %d )";
  mkL "my" ["ဘောငျထဲကအညွှန်းကိန်း။"; "ဖျက်၍ မရပါ။"; "သုညအားဖြင့်ဌာနခွဲ။"; "command ကို execute မရပါ။"; "မျှော်လင့်ထားသည့် [စာရင်း]."; "မျှော်လင့်ထားသည့် [ကုဒ်]."; "မျှော်လင့်ထားသည့် [နံပါတ်]."; "မျှော်လင့်ထားသည့် [ကြိုး]."; "ဖိုင်ကိုဖွင့်နေစဉ်ချို့ယွင်းချက်"; "အလွန်များစွာသောအသိုက်ဖုန်းခေါ်ဆိုမှု။"; "မှတ်ဥာဏ်မရှိ"; "ပြန်လာရမည် [Boolean].
"; "ပြန်လာရမည် [နံပါတ်].
"; "ပြန်လာရမည် [ကြိုး].
"; "Key ကအတိအကျ 16 bytes အရှည်ဖြစ်ရမည်။"]
    ["မက်ဆေ့ခ်ျရှည်လွန်းနေသည်"; "မျှော်လင့်ထားသည့် [:].
"; "မျှော်လင့်ထားသည့် [သတင်းစကား__].
"; "မျှော်လင့်ထားသည့် [)].
"; "မျှော်လင့်ထားသည့်မျဉ်းကြောင်း၏အဆုံး"; "Key ကိုအမြဲတမ်း property name နဲ့လိုက်သင့်ပါတယ်။"; "လက်ညှိုးကိုအမြဲ variable ကိုအားဖြင့်နောက်တော်သို့လိုက်သင့်ပါတယ်!"; "မက်ဆေ့ခ်ျကိုလက်ခံရရှိသူမျှော်လင့်ထား။"; "လက်ခံသူသည်အူမကြီးနောက်လိုက်။ မရပါ။"; "မမှန်ကန်သော lefthand တာဝနျ။"]
    "ဖွင့ ်၍ မရပါ: %s  ။" "ဆန်းစစ်မှုအမှား၊ မမျှော်လင့်သော %s  ( %s : %d )";
  mkL "ne" ["सीमा बाहिर सूचकांक।"; "हटाउन असमर्थ।"; "शून्य बाट भाग।"; "आदेश कार्यान्वयन गर्न असमर्थ।"; "अपेक्षित [सूची]."; "अपेक्षित [कोड]."; "अपेक्षित [संख्या]."; "अपेक्षित [स्ट्रिंग]."; "फाइल खोल्दा त्रुटि भयो।"; "धेरै नै नेस्ट गरिएको कलहरू।"; "मेमोरी सकियो।"; "फर्कनु पर्छ [बुलियन].
"; "फर्कनु पर्छ [संख्या].
"; "फर्कनु पर्छ [स्ट्रिंग].
"; "कुञ्जी ठ्याक्कै १ by बाइट लामो हुनुपर्छ।"]
    ["सन्देश धेरै लामो छ।"; "अपेक्षित [:].
"; "अपेक्षित [सन्देश].
"; "अपेक्षित [)].
"; "लाइनको अन्त्य हुने आशा"; "कुञ्जी सँधै सम्पत्ती नाममा पछ्याउनुपर्दछ!"; "पोइन्टि hand हात सँधै भेरिएबलको अनुसरण गर्नुपर्छ"; "सन्देश प्राप्तकर्ताको अपेक्षित"; "प्रापकलाई कालोन पछि लाग्न सक्दैन।"; "अवैध बायाँ कार्य"]
    "खोल्न असमर्थ: %s ।" "पार्स त्रुटि अप्रत्याशित %s  ( %s : %d )";
  mkL "nl" ["Index valt buiten bereik."; "Kan niet verwijderen."; "Deling door nul."; "Kan opdracht niet uitvoeren."; "Verwacht reeks."; "Verwacht codeblok."; "Verwacht getal."; "Verwacht tekst."; "Kan bestand niet openen.
"; "Teveel geneste aanroepen."; "Te weinig geheugen."; "Moet antwoorden met een waarheid."; "Moet antwoorden met een getal."; "Moet antwoorden met een tekst."; "Sleutel moet exact 16 bytes lang zijn."]
    ["Bericht te lang.
"; "Dubbele punt verwacht.
"; "Bericht verwacht.
"; "Verwacht: ).
"; "Punt verwacht (.).
"; "Sleutel moet altijd worden gevolgd door objecteigenschap.
"; "Aanwijzer moet gevolgd worden door variabele!
"; "Verwacht ontvanger voor bericht.
"; "Ontvanger kan niet worden gevolgd door dubbele punt.
"; "Ongeldige linkerhelft van toekenning.
"]
    "Kan niet openen: %s." "Taalfout, onverwacht symbool: %s ( %s: %d )
";
  mkL "no" ["Indeks utenfor grensene"; "Kan ikke slette"; "Divisjon med null"; "Kan ikke utføre kommando"; "Forventet [Liste]."; "Forventet [Kode]."; "Forventet [Nummer]."; "Forventet [String]."; "Feil under åpningen av filen"; "For mange nestede samtaler"; "Tomt for minne"; "Må tilbake [Boolean].
"; "Må tilbake [Nummer].
"; "Må tilbake [String].
"; "Nøkkelen må være nøyaktig 16 byte lang"]
    ["Meldingen er for lang"; "Forventet [:].
"; "Forventet [beskjed].
"; "Forventet [)].
"; "Forventet slutt på linjen"; "Nøkkel skal alltid følges av et navn på eiendommen!"; "Pekende hånd skal alltid følges av variabel!"; "Forventet en meldingsmottaker"; "Mottakeren kan ikke følges av tykktarm"; "Ugyldig venstre oppgave"]
    "Kan ikke åpne: %s " "Analysefeil uventet %s  ( %s : %d )";
  mkL "ny" ["Index kuchokera pamalire"; "Takanika kuchotsa"; "Gawani ziro"; "Takanika kupereka lamulo"; "Zikuyembekezeredwa [Mndandanda]."; "Zikuyembekezeredwa [Code]."; "Zikuyembekezeredwa [Chiwerengero]."; "Zikuyembekezeredwa [Chingwe]."; "Panali vuto potsegula fayilo"; "Mafoni ochuluka kwambiri"; "Kuchokera kukumbukira"; "Ayenera kubwerera [Boolean].
"; "Ayenera kubwerera [Chiwerengero].
"; "Ayenera kubwerera [Chingwe].
"; "Mfungulo iyenera kukhala yofanana ndende 16"]
    ["Mauthenga atali kwambiri"; "Zikuyembekezeredwa [:].
"; "Zikuyembekezeredwa [uthenga].
"; "Zikuyembekezeredwa [)].
"; "Kuyembekezeredwa kutha kwa mzere"; "Mfungulo iyenera kutsatiridwa nthawi zonse ndi dzina la malo!"; "Dzanja lowonetsa likuyenera kutsatiridwa mosinthasintha!"; "Akuyembekezeredwa wolandila uthenga"; "Wolandila sangatsatidwe ndi colon"; "Ntchito yosavomerezeka yakumanzere"]
    "Takanika kutsegula: %s " "Vuto la parse zosayembekezereka %s  ( %s : %d )";
  mkL "or" ["ସୀମା ବାହାରେ ସୂଚକାଙ୍କ |"; "ବିଲୋପ କରିବାକୁ ଅସମର୍ଥ |"; "ଶୂନ ଦ୍ୱାରା ବିଭାଜନ |"; "କମାଣ୍ଡ୍ ଏକଜେକ୍ୟୁଟ୍ କରିବାକୁ ଅସମର୍ଥ |"; "ଆଶା କରାଯାଏ [ତାଲିକା |]."; "ଆଶା କରାଯାଏ [କୋଡ୍]."; "ଆଶା କରାଯାଏ [ସଂଖ୍ୟା]."; "ଆଶା କରାଯାଏ [ବାକ୍ୟ]."; "ଫାଇଲ୍ ଖୋଲିବା ସମୟରେ ତ୍ରୁଟି |"; "ଅତ୍ୟଧିକ ନେଷ୍ଟେଡ୍ କଲ୍ |"; "ସ୍ମୃତି ବାହାରେ |"; "ନିଶ୍ଚୟ ଫେରିବ | [ବୁଲିଅନ୍ |].
"; "ନିଶ୍ଚୟ ଫେରିବ | [ସଂଖ୍ୟା].
"; "ନିଶ୍ଚୟ ଫେରିବ | [ବାକ୍ୟ].
"; "ଚାବି ନିଶ୍ଚିତ ଭାବରେ 16 ବାଇଟ୍ ଲମ୍ବା ହେବା ଜରୁରୀ |"]
    ["ବାର୍ତ୍ତା ବହୁତ ଲମ୍ବା |"; "ଆଶା କରାଯାଏ [:].
"; "ଆଶା କରାଯାଏ [ବାର୍ତ୍ତା].
"; "ଆଶା କରାଯାଏ [)].
"; "ଧାଡିର ଆଶାକରାଯାଇଥିବା ଶେଷ |"; "ଚାବି ସର୍ବଦା ଏକ ସମ୍ପତ୍ତି ନାମ ଦ୍ୱାରା ଅନୁସରଣ କରାଯିବା ଉଚିତ୍!"; "ହ୍ୟାଣ୍ଡିଙ୍ଗ୍ ସବୁବେଳେ ଭେରିଏବଲ୍ ଦ୍ୱାରା ଅନୁସରଣ କରାଯିବା ଉଚିତ୍!"; "ଏକ ବାର୍ତ୍ତା ପ୍ରାପ୍ତକର୍ତ୍ତା ଆଶା କରିଥିଲେ |"; "ପ୍ରାପ୍ତକର୍ତ୍ତାଙ୍କୁ କୋଲନ୍ ଅନୁସରଣ କରାଯାଇପାରିବ ନାହିଁ |"; "ଅବ val ଧ ଅବଶିଷ୍ଟ କାର୍ଯ୍ୟ |"]
    "ଖୋଲିବାକୁ ଅସମର୍ଥ: %s " "ପାର୍ସ ତ୍ରୁଟି ଅପ୍ରତ୍ୟାଶିତ %s  ( %s : %d )";
  mkL "pa" ["ਸੀਮਾਵਾਂ ਤੋਂ ਬਾਹਰ ਤਤਕਰਾ"; "ਮਿਟਾਉਣ ਵਿੱਚ ਅਸਮਰੱਥ"; "ਜ਼ੀਰੋ ਨਾਲ ਵੰਡ"; "ਕਮਾਂਡ ਚਲਾਉਣ ਲਈ ਅਸਮਰੱਥ ਹੈ"; "ਉਮੀਦ ਹੈ [ਸੂਚੀ]."; "ਉਮੀਦ ਹੈ [ਕੋਡ]."; "ਉਮੀਦ ਹੈ [ਗਿਣਤੀ]."; "ਉਮੀਦ ਹੈ [ਸਤਰ]."; "ਫਾਈਲ ਖੋਲ੍ਹਣ ਦੌਰਾਨ ਗਲਤੀ"; "ਬਹੁਤ ਸਾਰੀਆਂ ਨੇਸਟਡ ਕਾਲਾਂ"; "ਸਮਝ ਤੋ ਬਾਹਰ"; "ਵਾਪਸ ਆਉਣਾ ਚਾਹੀਦਾ ਹੈ [ਬੂਲੀਅਨ].
"; "ਵਾਪਸ ਆਉਣਾ ਚਾਹੀਦਾ ਹੈ [ਗਿਣਤੀ].
"; "ਵਾਪਸ ਆਉਣਾ ਚਾਹੀਦਾ ਹੈ [ਸਤਰ].
"; "ਕੁੰਜੀ 16 ਬਾਈਟ ਲੰਬੀ ਹੋਣੀ ਚਾਹੀਦੀ ਹੈ"]
    ["ਸੁਨੇਹਾ ਬਹੁਤ ਲੰਮਾ ਹੈ"; "ਉਮੀਦ ਹੈ [:].
"; "ਉਮੀਦ ਹੈ [ਸੁਨੇਹਾ].
"; "ਉਮੀਦ ਹੈ [)].
"; "ਲਾਈਨ ਦੇ ਅੰਤ ਦੀ ਉਮੀਦ"; "ਕੁੰਜੀ ਨੂੰ ਹਮੇਸ਼ਾ ਇੱਕ ਜਾਇਦਾਦ ਦੇ ਨਾਮ ਨਾਲ ਪਾਲਣਾ ਕਰਨਾ ਚਾਹੀਦਾ ਹੈ!"; "ਪੁਆਇੰਟਿੰਗ ਹੱਥ ਹਮੇਸ਼ਾ ਪਰਿਵਰਤਨਸ਼ੀਲ ਹੋਣਾ ਚਾਹੀਦਾ ਹੈ!"; "ਸੰਦੇਸ਼ ਪ੍ਰਾਪਤ ਕਰਨ ਵਾਲੇ ਦੀ ਉਮੀਦ ਹੈ"; "ਪ੍ਰਾਪਤਕਰਤਾ ਕੋਲਨ ਤੋਂ ਬਾਅਦ ਨਹੀਂ ਹੋ ਸਕਦਾ"; "ਗਲਤ ਖੱਬੇ ਹੱਥ ਦਾ ਕੰਮ"]
    "ਖੋਲ੍ਹਣ ਲਈ ਅਸਮਰੱਥ: %s " "ਪਾਰਸ ਕਰਨ ਵਿੱਚ ਗਲਤੀ ਅਚਾਨਕ %s  ( %s : %d )";
  mkL "pap" ["Lista pafó di frontera."; "No por kita."; "Divishon pa er."; "No por ehekutá e komando."; "ekspektativa lista."; "ekspektativa codificar."; "ekspektativa number."; "ekspektativa teksto."; "Eror e habri e archivo.
"; "Diesdos laman unidos."; "No ta keda espasio."; "Mester bin bek su mes òf nò"; "Mester bin bek un kantidat."; "Mester bin bek un teksto."; "E leve mester tin eksakto 16 bytes largu."]
    ["Mensahe muchu largu.
"; "ekspektativa :.
"; "ekspektativa mensahe.
"; "ekspektativa ).
"; "ekspektativa (.).
"; "E leve semper mester bai mesora di un nòmber di propiedat!
"; "E man saludos semper mester bai mesora di karibe!
"; "Ta spera un besindario di e mensahe.
"; "E ekipo no por wòrdu sigui na dos skinanan.
"; "Asinaki robes invalid.
"]
    "No por habri: %s." "Eror di análisis, inspira %s ( %s: %d )
";
  mkL "pl" ["Indeks poza zakresem"; "Nie można usunąć"; "Dzielenie przez zero"; "Nie można wykonać polecenia"; "Spodziewany [Lista]."; "Spodziewany [Kod]."; "Spodziewany [Numer]."; "Spodziewany [Strunowy]."; "Błąd podczas otwierania pliku"; "Zbyt wiele zagnieżdżonych połączeń"; "Brak pamięci"; "Musi powrócić [Boolean].
"; "Musi powrócić [Numer].
"; "Musi powrócić [Strunowy].
"; "Klucz musi mieć dokładnie 16 bajtów"]
    ["Wiadomość za długa"; "Spodziewany [:].
"; "Spodziewany [wiadomość].
"; "Spodziewany [)].
"; "Oczekiwany koniec linii"; "Po kluczu zawsze powinna następować nazwa właściwości!"; "Wskazująca ręka powinna zawsze następować po zmiennej!"; "Oczekiwany adresat wiadomości"; "Odbiorcy nie może towarzyszyć dwukropek"; "Nieprawidłowe przypisanie lewej i lewej ręki"]
    "Nie można otworzyć: %s " "Błąd analizy nieoczekiwany %s  ( %s : %d )";
  mkL "ps" ["له حدود بهر شاخص"; "د حذف کولو توان نلري"; "د صفر په واسطه تقسیم"; "د بولۍ د پلي کولو توان نلري"; "تمه شوې [لیست]."; "تمه شوې [کوډ]."; "تمه شوې [شمیره]."; "تمه شوې [تار]."; "د دوتنې په پرانیستلو کې تېروتنه"; "ډیر ځنډول شوي زنګونه"; "له حافظې لرې"; "باید بیرته راشي [بولین].
"; "باید بیرته راشي [شمیره].
"; "باید بیرته راشي [تار].
"; "کیلي باید په سمه توګه 16 بایټ اوږد وي"]
    ["پیغام ډیر اوږد دی"; "تمه شوې [:].
"; "تمه شوې [پیغام].
"; "تمه شوې [)].
"; "د کرښې د پای تمه"; "کیلي باید تل د ملکیت نوم تعقیب شي!"; "د اشارې لاس باید تل د بدلون وړ تعقیب شي!"; "د پیغام ترلاسه کونکي تمه"; "اخیستونکی د ډګروال نه تعقیب کیدی شي"; "د کی left لاس غلط کار"]
    "د خلاصیدو توان نلري:" "Parse error, unexpected %s ( %s: %d )
";
  mkL "pt" ["Índice fora dos limites"; "Não foi possível excluir"; "Divisão por zero"; "Não foi possível executar o comando"; "Esperado [Lista]."; "Esperado [Código]."; "Esperado [Número]."; "Esperado [Corda]."; "Erro ao abrir o arquivo"; "Muitas chamadas aninhadas"; "Fora da memória"; "Deve retornar [Boleano].
"; "Deve retornar [Número].
"; "Deve retornar [Corda].
"; "A chave deve ter exatamente 16 bytes"]
    ["Mensagem muito longa"; "Esperado [:].
"; "Esperado [mensagem].
"; "Esperado [)].
"; "Fim de linha esperado"; "A chave deve sempre ser seguida por um nome de propriedade!"; "Ponteiro sempre deve ser seguido por variável!"; "Esperava um destinatário da mensagem"; "O destinatário não pode ser seguido por dois pontos"; "Atribuição à esquerda inválida"]
    "Não foi possível abrir: %s " "Erro de análise %s  inesperado ( %s : %d )";
  mkL "pt_br" ["Indexação fora dos limites."; "Incapaz de apagar."; "Divisão por zero."; "Incapaz de executar o comando."; "Esperada uma lista."; "Esperado um bloco."; "Esperado um número."; "Esperada uma string."; "Erro no momento de abrir o arquivo.
"; "Muitas chamadas aninhadas."; "Sem memoria."; "Precisa retornar um boleano."; "Precisa retornar um número."; "Precisa retornar uma string."; "A chave tem que ter exatos 16 bytes de tamanho."]
    ["Mensagem muito longa.
"; "Esperado dois pontos.
"; "Esperada uma mensagem.
"; "Esperado ).
"; "Esperado um ponto (.).
"; "Chave sempre deve ser seguida por um nome de propriedade!
"; "Mão apontando deve sempre ser seguida por uma variável!
"; "Esperado um recebedor de mensagem.
"; "Recebedor não pode ser seguido por virgula.
"; "Tarefa de mão esquerda inválida.
"]
    "Incapaz de abrir: %s." "Erro na análise, inesperado %s ( %s: %d )
";
  mkL "ro" ["Index ieşit din limite."; "Nu se poate şterge."; "Împărţire la zero."; "Comanda nu a putut fi executată."; "Lipseşte o listă."; "Lipseşte un bloc."; "Lipseşte un număr."; "Lipseşte un şir de caractere."; "Eroare la deschiderea fişierului.
"; "Prea multe apelări încapsulate unele in altele."; "Nu mai există destulă memorie."; "Trebuie să returneze un boolean."; "Trebuie să returneze un număr."; "Trebuie să returneze un şir de caractere."; "Cheia trebuie să aibă exact 16 octeţi."]
    ["Mesaj prea lung.
"; "Lipsesc doua puncte.
"; "Lipseşte un mesaj.
"; "Lipseşte ).
"; "Lipseşte un punct (.).
"; "Cheia ar trebui să fie urmată de numele unei proprietăţi!
"; "Indicatorul trebuie intotdeauna să fie urmat de o variabilă!
"; "Lipseşte recipientul mesajului.
"; "Recipientul nu poate fi urmat de doua puncte.
"; "Atribuire de stânga invalidă.
"]
    "Nu poate fi deschis: %s." "Eroare la analiză, caractere neaşteptate: %s ( %s: %d )
";
  mkL "ru" ["Индекс выходит за пределы."; "Невозможно удалить."; "Деление на ноль."; "Невозможно выполнить команду."; "Ожидается список."; "Ожидается блок."; "Ожидается число."; "Ожидается строка."; "Ошибка при открытии файла.
"; "Слишком много вложенных вызовов."; "Недостаточно памяти."; "Должен возвращать логическое значение."; "Должен возвращать число."; "Должен возвращать строку."; "Ключ должен быть ровно 16 байт."]
    ["Сообщение слишком длинное.
"; "Ожидается двоеточие (:).
"; "Ожидается сообщение.
"; "Ожидается ).
"; "Ожидается точка (.).
"; "Ключ всегда должен сопровождаться названием свойства!
"; "Указывающая рука всегда должна сопровождаться переменной!
"; "Ожидается получить сообщение.
"; "После получателя нельзя указывать двоеточие.
"; "Неверное левостороннее присвоение.
"]
    "Невозможно открыть: %s." "Непредвиденная ошибка синтаксического анализа: %s ( %s: %d )
";
  mkL "rw" ["Ironderero ntarengwa"; "Ntibishoboka gusiba"; "Igabana na zeru"; "Ntibishoboka gukora itegeko"; "Biteganijwe [Urutonde]."; "Biteganijwe [Kode]."; "Biteganijwe [Umubare]."; "Biteganijwe [Ikirongo]."; "Ikosa mugihe ufungura dosiye"; "Hamagara cyane"; "Ntibibutse"; "Ugomba kugaruka [Boolean].
"; "Ugomba kugaruka [Umubare].
"; "Ugomba kugaruka [Ikirongo].
"; "Urufunguzo rugomba kuba rufite uburebure bwa 16 bytes"]
    ["Ubutumwa burebure"; "Biteganijwe [:].
"; "Biteganijwe [ubutumwa].
"; "Biteganijwe [)].
"; "Biteganijwe kurangiza umurongo"; "Urufunguzo rugomba guhora rukurikirwa nizina ryumutungo!"; "Kwerekana ikiganza bigomba guhora bikurikirwa nimpinduka!"; "Biteganijwe ko wakiriye ubutumwa"; "Uwakiriye ntashobora gukurikiranwa na colon"; "Umukoro utemewe"]
    "Ntibishobora gufungura: %s " "Ikosa rya parse ibitunguranye %s  ( %s : %d )";
  mkL "sd" ["انڊيڪس حدن کان ٻاهر."; "حذف ڪرڻ جي قابل ناھي."; "صفر کان ڊويزن."; "عمل ڪرڻ کان قاصر."; "متوقع فهرست."; "متوقع بلاڪ."; "متوقع نمبر."; "متوقع تار."; "فائل کولڻ دوران غلطي. 
"; "تمام گھڻا گستاخ ڪالون."; "ميموري ختم ٿي وئي."; "ھڪ بولين ضرور موٽائڻ گھرجي."; "نمبر کي واپس ڪرڻ گھرجي."; "ھڪ جملو واپس ڏيڻ گھرجي."; "چاٻي ايتري ئي 16 بائيٽ ڊگھي ٿيندي."]
    ["پيغام تمام ڊگھو آھي. 
"; "متوقع ڪولون. 
"; "متوقع پيغام. 
"; "متوقع). 
"; "متوقع نقطي (.). 
"; "چاٻي هميشه ملڪيت جي نالي سان ھلڻ گھرجي! 
"; "اشارو ڏيڻ واري ھميشھ ھميشہ متغيبي ھئڻ گھرجي! 
"; "پيغام وصول ڪندڙ جي توقع ڪئي وئي. 
"; "وصول ڪندڙ کي ڪوليون جي پيروي نٿي ڪري سگھجي. 
"; "غلط کاٻي هٿ واري تفويض. 
"]
    "کولڻ کان قاصر:%s." "پارسي غلطي ، اڻ unexpectedاڻ%s (%s:%d) 
";
  mkL "si" ["සීමාව ඉක්මවා යන දර්ශකය"; "මකා දැමිය නොහැක"; "ශුන්‍යයෙන් බෙදීම"; "විධානය ක්‍රියාත්මක කළ නොහැක"; "අපේක්ෂිතයි [ලැයිස්තුව]."; "අපේක්ෂිතයි [කේතය]."; "අපේක්ෂිතයි [අංකය]."; "අපේක්ෂිතයි [නූල්]."; "ගොනුව විවෘත කිරීමේදී දෝෂයකි"; "කැදැලි ඇමතුම් වැඩියි"; "මතකයෙන් ඉවතට"; "නැවත පැමිණිය යුතුය [බූලියන්].
"; "නැවත පැමිණිය යුතුය [අංකය].
"; "නැවත පැමිණිය යුතුය [නූල්].
"; "යතුර හරියටම බයිට් 16 ක් දිග විය යුතුය"]
    ["පණිවිඩය දිග වැඩියි"; "අපේක්ෂිතයි [:].
"; "අපේක්ෂිතයි [පණිවුඩය].
"; "අපේක්ෂිතයි [)].
"; "රේඛාවේ අපේක්ෂිත අවසානය"; "යතුර සැමවිටම දේපල නාමයකින් අනුගමනය කළ යුතුය!"; "අත යොමු කිරීම සැමවිටම විචල්යයෙන් අනුගමනය කළ යුතුය!"; "පණිවිඩ ලබන්නෙකු අපේක්ෂා කරයි"; "ලබන්නාට මහා බඩවැල අනුගමනය කළ නොහැක"; "අවලංගු වම්පස පැවරුම"]
    "විවෘත කළ නොහැක: %s " "විග්‍රහ කිරීමේ දෝෂය අනපේක්ෂිත %s  ( %s : %d )";
  mkL "sk" ["Index mimo hranice"; "Nie je možné odstrániť"; "Delenie nulou"; "Nie je možné vykonať príkaz"; "očakávaný [Zoznam]."; "očakávaný [Kód]."; "očakávaný [číslo]."; "očakávaný [Povrázok]."; "Chyba pri otváraní súboru"; "Príliš veľa vnorených hovorov"; "Nedostatok pamäte"; "Musí sa vrátiť [Boolean].
"; "Musí sa vrátiť [číslo].
"; "Musí sa vrátiť [Povrázok].
"; "Kľúč musí mať presne 16 bajtov"]
    ["Správa je príliš dlhá"; "očakávaný [:].
"; "očakávaný [správa].
"; "očakávaný [)].
"; "Očakávaný koniec riadku"; "Za kľúčom by mal vždy byť názov vlastníctva!"; "Ukazujúca ruka by mala vždy nasledovať premenná!"; "Očakával sa príjemca správy"; "Po príjemcovi nemôže nasledovať dvojbodka"; "Neplatné priradenie doľava"]
    "Nedá sa otvoriť: %s " "Chyba analýzy neočakávaná %s  ( %s : %d )";
  mkL "sl" ["Indeks zunaj meja"; "Brisanja ni mogoče izbrisati"; "Delitev na nič"; "Ukaza ni mogoče izvesti"; "Pričakovano [Seznam]."; "Pričakovano [Koda]."; "Pričakovano [Številka]."; "Pričakovano [Vrvica]."; "Napaka med odpiranjem datoteke"; "Preveč ugnezdenih klicev"; "Zmanjkalo je spomina"; "Mora se vrniti [Boolov].
"; "Mora se vrniti [Številka].
"; "Mora se vrniti [Vrvica].
"; "Ključ mora biti dolg točno 16 bajtov"]
    ["Sporočilo je predolgo"; "Pričakovano [:].
"; "Pričakovano [sporočilo].
"; "Pričakovano [)].
"; "Pričakovani konec vrstice"; "Ključu mora vedno slediti ime lastnosti!"; "Kazalec mora vedno spremljati spremenljivko!"; "Pričakovani prejemnik sporočila"; "Prejemniku ne more slediti debelo črevo"; "Neveljavna naloga za levo roko"]
    "Odpiranja ni mogoče: %s " "Napaka razčlenitve nepričakovano %s  ( %s : %d )";
  mkL "sm" ["Faasino igoa mai tuaoi"; "Le mafai ona tape"; "Vaevaega i le zero"; "Le mafai ona faia le faʻatonu"; "Fuafuaina [Lisi]."; "Fuafuaina [Code]."; "Fuafuaina [Numera]."; "Fuafuaina [Faʻailoga]."; "Lavea ao tatala le faila"; "Tele tele telefoni faʻatonuina"; "Faʻamanatu mai"; "E tatau ona toe foi [Faʻamalie].
"; "E tatau ona toe foi [Numera].
"; "E tatau ona toe foi [Faʻailoga].
"; "Lelei e tatau ona 16 tiketi le umi"]
    ["E umi le umi o le feau"; "Fuafuaina [:].
"; "Fuafuaina [feʻau].
"; "Fuafuaina [)].
"; "Faamoemoe faamoemoeina o laina"; "E tatau ona mulimulitaʻia le ki i se igoa meatotino!"; "Faʻamau lima e tatau ona mulimulitaʻia i taimi uma!"; "Ua faamoemoeina se tagata e mauaina le savali"; "E le mafai ona mulimuli mai le kovana i le tagata faʻatau"; "Galuega agavale le aoga"]
    "Le mafai ona tatala: %s " "Faʻasalaga sese faʻamoemoe %s  ( %s : %d )";
  mkL "sn" ["Index kunze kwemiganhu"; "Kutadza kudzima"; "Govana ne zero"; "Kutadza kuita murairo"; "Zvinotarisirwa [Rondedzero]."; "Zvinotarisirwa [Code]."; "Zvinotarisirwa [Nhamba]."; "Zvinotarisirwa [Tambo]."; "Kanganiso pakuvhura iyo faira"; "Kune akawanda manhamba nested mafoni"; "Kunze kwendangariro"; "Unofanira kudzoka [Boolean].
"; "Unofanira kudzoka [Nhamba].
"; "Unofanira kudzoka [Tambo].
"; "Kiyi inofanira kunge yakanyatsoita mabheti gumi nematanhatu"]
    ["Mharidzo yakareba kwazvo"; "Zvinotarisirwa [:].
"; "Zvinotarisirwa [meseji].
"; "Zvinotarisirwa [)].
"; "Inotarisirwa kupera kwetambo"; "Kiyi inofanirwa kugara ichiteverwa nezita rezvivakwa!"; "Ruoko rwokunongedzera runofanira kuteverwa nekushandurwa!"; "Inotarisirwa yekugamuchira meseji"; "Anogamuchira haagoni kuteverwa nekoloni"; "Basa risingabvumirwe"]
    "Kutadza kuvhura: %s " "Kukanganisa kwechivara zvisingatarisirwi %s  ( %s : %d )";
  mkL "so" ["Tilmaamayaasha oo ka baxsan xuduudaha"; "Lama tirtiri karin"; "U qaybi eber"; "Tulin karin amarka"; "La Filayo [Liiska]."; "La Filayo [Koodh]."; "La Filayo [Tirada]."; "La Filayo [Xarig]."; "Cilad markii furitaanka faylka"; "Wicitaan aad u badan oo la soo wiciyay"; "Xusuus la’aan"; "Waa inuu soo noqdaa [Boolean].
"; "Waa inuu soo noqdaa [Tirada].
"; "Waa inuu soo noqdaa [Xarig].
"; "Fureyaashu waa inay ahaadaan 16 baati dherer ah"]
    ["Farriin aad u dheer"; "La Filayo [:].
"; "La Filayo [farriin].
"; "La Filayo [)].
"; "Qadka la filayo inuu dhammaado"; "Furaha waa inuu had iyo goor raacaa magaca hantida!"; "Gacanta farta waa in had iyo jeer la socotaa doorsoomaha!"; "Filo qof farriin hela"; "Qaatahahu kuma raaci karo xiidanka"; "Howsha bidix ee aan hagaagsaneyn"]
    "Lama furi karo: %s " "Khaladaadka guudlama filaanka ah %s (%s:%d)";
  mkL "sq" ["Indeksi jashtë kufijve"; "Në pamundësi të fshihet"; "Ndarja me zero"; "Në pamundësi për të ekzekutuar komandën"; "i pritur [Listë]."; "i pritur [Kod]."; "i pritur [Numër]."; "i pritur [Varg]."; "Gabim gjatë hapjes së skedarit"; "Shumë thirrje fole"; "Jashtë kujtesës"; "Duhet të kthehet [Boolean].
"; "Duhet të kthehet [Numër].
"; "Duhet të kthehet [Varg].
"; "Kyç duhet të jetë saktësisht 16 bytes"]
    ["Mesazh shumë i gjatë"; "i pritur [:].
"; "i pritur [mesazhi].
"; "i pritur [)].
"; "Fundi i pritshëm i linjës"; "Keyelësi gjithmonë duhet të pasohet nga një emër prone!"; "Tregimi i dorës gjithmonë duhet të pasohet nga ndryshueshme!"; "Pritet një marrës i mesazhit"; "Marrësi nuk mund të pasohet nga zorrës së trashë"; "Caktimi i pavlefshëm i leftës"]
    "Në pamundësi të hapjes: %s " "Gabim në analizë papritur %s  ( %s : %d )";
  mkL "sr" ["Индекс изван граница"; "Брисање није могуће"; "Подела по нули"; "Није могуће извршити наредбу"; "Очекиван [Листа]."; "Очекиван [Код]."; "Очекиван [Број]."; "Очекиван [Низ]."; "Грешка приликом отварања датотеке"; "Превише угнијежђених позива"; "Без меморије"; "Мора се вратити [Боолеан].
"; "Мора се вратити [Број].
"; "Мора се вратити [Низ].
"; "Кључ мора бити тачан 16 бајтова"]
    ["Порука је предуга"; "Очекиван [:].
"; "Очекиван [порука].
"; "Очекиван [)].
"; "Очекивани крај линије"; "Кључу увек треба пратити име својства!"; "Показивачка рука увек мора бити праћена променљивом!"; "Очекивани прималац поруке"; "Прималац не може да прати двоточка"; "Неважећи задатак леве руке"]
    "Није могуће отворити:%s" "Грешка рашчлањивања неочекивана %s  (%s:%d д)";
  mkL "st" ["Index e tsoang meeling"; "Ha e khone ho hlakola"; "Arola ka zero"; "Ha e khone ho etsa taelo"; "E lebelletsoe [Lenane]."; "E lebelletsoe [Khoutu]."; "E lebelletsoe [Palo]."; "E lebelletsoe [Khoele]."; "Phoso ha u bula faele"; "Mehala e mengata haholo e hlophisitsoeng"; "Ntle le mohopolo"; "E tlameha ho khutla [Boolean].
"; "E tlameha ho khutla [Palo].
"; "E tlameha ho khutla [Khoele].
"; "Senotlolo se lokela ho ba bolelele ba li-16 hantle"]
    ["Molaetsa o molelele haholo"; "E lebelletsoe [:].
"; "E lebelletsoe [molaetsa].
"; "E lebelletsoe [)].
"; "Phello e lebelletsoeng ea mohala"; "Senotlolo se lokela ho lula se lateloa ke lebitso la thepa!"; "Ho ts’oara letsoho ho lokela ho lateloa ke ho fapana kamehla!"; "E lebelletsoe moamoheli"; "Morekisi a ke ke a lateloa ke colon"; "Mosebetsi o sa sebetsoeng ka ho le letšehali"]
    "Ha e khone ho bula: %s " "Phoso ea papali %s  ( %s : %d ) e sa lebelloang";
  mkL "su" ["Indéksna batesan"; "Teu tiasa mupus"; "Babagian ku enol"; "Teu tiasa ngalaksanakeun paréntah"; "Disangka [Daptar]."; "Disangka [Kode]."; "Disangka [Nomer]."; "Disangka [String]."; "Lepat nalika muka file"; "Seueur sauran nénu"; "Kaluar mémori"; "Kedah uih deui [Boolean].
"; "Kedah uih deui [Nomer].
"; "Kedah uih deui [String].
"; "Konci kedah persis 16 bait panjang"]
    ["Seratan panjang teuing"; "Disangka [:].
"; "Disangka [pesen].
"; "Disangka [)].
"; "Diarepkeun tungtung jalur"; "Konci kedah dituturkeun ku nami harta!"; "Tangan anu arahkeun kedah dituturkeun ku variabel!"; "Diarepkeun panarima pesen"; "Panampi teu tiasa dituturkeun ku titik usus"; "Tugas lefthand anu teu leres"]
    "Teu tiasa dibuka: %s " "Kasalahan parse teu kaduga %s  ( %s : %d )";
  mkL "sv" ["Index utanför gränserna"; "Det går inte att radera"; "Dividera med noll"; "Det gick inte att utföra kommandot"; "Förväntad [Lista]."; "Förväntad [Koda]."; "Förväntad [Siffra]."; "Förväntad [Sträng]."; "Fel vid öppning av filen"; "För många kapslade samtal"; "Slut på minne"; "Måste återvända [Boolean].
"; "Måste återvända [Siffra].
"; "Måste återvända [Sträng].
"; "Nyckeln måste vara exakt 16 byte lång"]
    ["Meddelandet är för länge"; "Förväntad [:].
"; "Förväntad [meddelande].
"; "Förväntad [)].
"; "Förväntad slut på raden"; "Nyckeln ska alltid följas av ett fastighetsnamn!"; "Pekande hand ska alltid följas av variabel!"; "Förväntade en meddelandemottagare"; "Mottagaren kan inte följas av kolon"; "Ogiltig vänsteruppgift"]
    "Det gick inte att öppna: %s " "Analysfel oväntat %s  ( %s : %d )";
  mkL "sw" ["Kielelezo nje ya mipaka"; "Imeshindwa kufuta"; "Gawanya na sifuri"; "Haiwezi kutekeleza amri"; "Inatarajiwa [Orodha]."; "Inatarajiwa [Msimbo]."; "Inatarajiwa [Nambari]."; "Inatarajiwa [Kamba]."; "Kosa wakati wa kufungua faili"; "Simu nyingi zilizowekwa"; "Kati ya kumbukumbu"; "Lazima kurudi [Boolean].
"; "Lazima kurudi [Nambari].
"; "Lazima kurudi [Kamba].
"; "Ufunguo lazima uwe na kahyi 16 kwa urefu"]
    ["Ujumbe mrefu sana"; "Inatarajiwa [:].
"; "Inatarajiwa [ujumbe].
"; "Inatarajiwa [)].
"; "Mwisho uliotarajiwa wa mstari"; "Ufunguo unapaswa kufuatwa kila wakati na jina la mali!"; "Kuashiria mkono kunapaswa kufuatiwa kila wakati na kutofautiana!"; "Inatarajiwa mpokeaji wa ujumbe"; "Mpokeaji hauwezi kufuatwa na koloni"; "Jukumu batili la kushoto"]
    "Haiwezi kufungua: %s " "Kosa la kisaikolojia zisizotarajiwa %s  ( %s : %d )";
  mkL "ta" ["குறியீட்டு எல்லைக்கு அப்பாற்பட்டது"; "நீக்க முடியவில்லை"; "பூஜ்ஜியத்தால் பிரிவு"; "கட்டளையை இயக்க முடியவில்லை"; "எதிர்பார்க்கப்படுகிறது [பட்டியல்]."; "எதிர்பார்க்கப்படுகிறது [குறியீடு]."; "எதிர்பார்க்கப்படுகிறது [எண்]."; "எதிர்பார்க்கப்படுகிறது [லேசான கயிறு]."; "கோப்பைத் திறக்கும்போது பிழை"; "அதிகமான உள்ளமை அழைப்புகள்"; "நினைவகம் இல்லை"; "திரும்ப வேண்டும் [பூலியன்].
"; "திரும்ப வேண்டும் [எண்].
"; "திரும்ப வேண்டும் [லேசான கயிறு].
"; "விசை சரியாக 16 பைட்டுகள் நீளமாக இருக்க வேண்டும்"]
    ["செய்தி மிக நீளமானது"; "எதிர்பார்க்கப்படுகிறது [:].
"; "எதிர்பார்க்கப்படுகிறது [செய்தி].
"; "எதிர்பார்க்கப்படுகிறது [)].
"; "வரியின் எதிர்பார்க்கப்பட்ட முடிவு"; "விசையை எப்போதும் ஒரு சொத்து பெயருடன் பின்பற்ற வேண்டும்!"; "சுட்டிக்காட்டும் கையை எப்போதும் மாறி பின்பற்ற வேண்டும்!"; "செய்தி பெறுநரை எதிர்பார்க்கலாம்"; "பெறுபவரை பெருங்குடல் பின்பற்ற முடியாது"; "தவறான இடது கை பணி"]
    "திறக்க முடியவில்லை: %s " "பாகுபடுத்தல் பிழை எதிர்பாராத %s  ( %s : %d )";
  mkL "te" ["సూచిక హద్దులు దాటింది"; "తొలగించడం సాధ్యం కాలేదు"; "సున్నాతో భాగించటం"; "ఆదేశాన్ని అమలు చేయడం సాధ్యం కాలేదు"; "ఊహించినది [జాబితా]."; "ఊహించినది [కోడ్]."; "ఊహించినది [సంఖ్య]."; "ఊహించినది [స్ట్రింగ్]."; "ఫైల్‌ను తెరిచేటప్పుడు లోపం"; "చాలా సమూహ కాల్‌లు"; "జ్ఞాపక లోపము"; "తిరిగి రావాలి [బూలియన్].
"; "తిరిగి రావాలి [సంఖ్య].
"; "తిరిగి రావాలి [స్ట్రింగ్].
"; "కీ ఖచ్చితంగా 16 బైట్ల పొడవు ఉండాలి"]
    ["సందేశం చాలా పొడవుగా ఉంది"; "ఊహించినది [:].
"; "ఊహించినది [సందేశం].
"; "ఊహించినది [)].
"; "లైన్ యొక్క end హించిన ముగింపు"; "కీని ఎల్లప్పుడూ ఆస్తి పేరుతో అనుసరించాలి!"; "పాయింటింగ్ హ్యాండ్ ఎల్లప్పుడూ వేరియబుల్ అనుసరించాలి!"; "సందేశ గ్రహీతను ఆశించారు"; "గ్రహీతను పెద్దప్రేగు అనుసరించదు"; "చెల్లని ఎడమ చేతి కేటాయింపు"]
    "తెరవడం సాధ్యం కాలేదు: %s " "పార్స్ లోపం unexpected హించని %s  ( %s : %d )";
  mkL "tg" ["Индекс аз ҳудуди"; "Қодир нест карда наметавонам"; "Тақсим аз сифр"; "Фармонро иҷро карда намешавад"; "Интизор меравад [Рӯйхат]."; "Интизор меравад [Код]."; "Интизор меравад [Шумора]."; "Интизор меравад [Стринг]."; "Хатогӣ ҳангоми кушодани файл"; "Зангҳои бешумор ворид карда шуданд"; "Аз хотир"; "Бояд баргардад [Були].
"; "Бояд баргардад [Шумора].
"; "Бояд баргардад [Стринг].
"; "Калид бояд маҳз 16 байт дошта бошад"]
    ["Паёми хеле дароз"; "Интизор меравад [:].
"; "Интизор меравад [паём].
"; "Интизор меравад [)].
"; "Поёни интизории хат"; "Калид бояд ҳамеша бо номи моликият риоя карда шавад!"; "Дастӣ бояд ҳамеша бо тағирёбанда риоя карда шавад!"; "Қабулкунандаи паём интизор аст"; "Қабулкунандаро аз паси колон пайравӣ кардан мумкин нест"; "Таъйини нодурусти лифт"]
    "Кушодан ғайриимкон аст: %s " "Хатои коркард ногаҳон %s  ( %s : %d )";
  mkL "th" ["สร้างดัชนีนอกขอบเขต"; "ไม่สามารถลบได้"; "การหารด้วยศูนย์"; "ไม่สามารถเรียกใช้งานคำสั่ง"; "ที่คาดหวัง [รายการ]."; "ที่คาดหวัง [รหัส]."; "ที่คาดหวัง [จำนวน]."; "ที่คาดหวัง [เชือก]."; "เกิดข้อผิดพลาดขณะเปิดไฟล์"; "มีการโทรซ้อนหลายครั้งเกินไป"; "ความจำเต็ม"; "จะต้องกลับมา [บูลีน].
"; "จะต้องกลับมา [จำนวน].
"; "จะต้องกลับมา [เชือก].
"; "รหัสจะต้องมีความยาว 16 ไบต์"]
    ["ข้อความยาวเกินไป"; "ที่คาดหวัง [:].
"; "ที่คาดหวัง [ข้อความ].
"; "ที่คาดหวัง [)].
"; "ต้องการจุดสิ้นสุดของบรรทัด"; "คีย์ควรตามด้วยชื่อคุณสมบัติเสมอ!"; "ตัวแปรควรตามด้วยมือที่ชี้!"; "คาดว่าผู้รับข้อความ"; "ผู้รับไม่สามารถตามด้วยโคลอน"; "การกำหนด lefthand ไม่ถูกต้อง"]
    "ไม่สามารถเปิดได้: %s " "การแยกวิเคราะห์ผิดพลาด %s  ( %s : %d )";
  mkL "tk" ["Çäkden çykma"; "Öçürip bolmaýar"; "Nula bölmek"; "Buýrugy ýerine ýetirip bolmaýar"; "Garaşylýar [Sanaw]."; "Garaşylýar [Kod]."; "Garaşylýar [San]."; "Garaşylýar [Setir]."; "Faýly açanyňyzda säwlik"; "Öýlenen jaňlar gaty köp"; "Memoryatdan"; "Yzyna gaýdyp gelmeli [Boolean].
"; "Yzyna gaýdyp gelmeli [San].
"; "Yzyna gaýdyp gelmeli [Setir].
"; "Açar takmynan 16 baýt bolmaly"]
    ["Habar gaty uzyn"; "Garaşylýar [:].
"; "Garaşylýar [habar].
"; "Garaşylýar [)].
"; "Çyzygyň garaşylýan soňy"; "Açar elmydama emläk ady bilen yzarlanmalydyr!"; "El görkezmek elmydama üýtgeýänleriň yzyndan ýetmeli!"; "Habar alyjysyna garaşylýar"; "Alyjynyň içegesi yzarlanyp bilinmez"; "Nädogry galan tabşyryk"]
    "Açyp bolmaýar: %s " "Derňew ýalňyşlygy garaşylmadyk %s  ( %s : %d )";
  mkL "tl" ["Ang index ay walang hangganan"; "Hindi maalis"; "Dibisyon ng zero"; "Hindi maipatupad ang utos"; "Inaasahan [Listahan]."; "Inaasahan [Code]."; "Inaasahan [Bilang]."; "Inaasahan [String]."; "Error habang binubuksan ang file"; "Masyadong maraming mga nested tawag"; "Wala sa memorya"; "Kailangang bumalik [Boolean].
"; "Kailangang bumalik [Bilang].
"; "Kailangang bumalik [String].
"; "Ang key ay dapat na eksaktong 16 byte ang haba"]
    ["Mahaba ang mensahe"; "Inaasahan [:].
"; "Inaasahan [mensahe].
"; "Inaasahan [)].
"; "Inaasahang pagtatapos ng linya"; "Ang key ay dapat na palaging sinusundan ng isang pangalan ng pag-aari!"; "Ang kamay sa pagturo ay dapat na palaging sinusundan ng variable!"; "Inaasahang isang tatanggap ng mensahe"; "Ang tagatanggap ay hindi maaaring sinusundan ng colon"; "Di-wastong gawain sa lefthand"]
    "Hindi mabuksan: %s " "Ang pagkakamali ng magulang hindi inaasahang %s  ( %s : %d )";
  mkL "tr" ["Endeks sınırların dışında"; "Silinemiyor"; "Sıfıra bölüm"; "Komut yürütülemiyor"; "Beklenen [Liste]."; "Beklenen [Kod]."; "Beklenen [Numara]."; "Beklenen [Sicim]."; "Dosya açılırken hata oluştu"; "Çok fazla iç içe çağrı var"; "Bellek yetersiz"; "Geri dönmelidir [Boole].
"; "Geri dönmelidir [Numara].
"; "Geri dönmelidir [Sicim].
"; "Anahtar tam olarak 16 bayt uzunluğunda olmalıdır"]
    ["Mesaj çok uzun"; "Beklenen [:].
"; "Beklenen [İleti].
"; "Beklenen [)].
"; "Beklenen satır sonu"; "Anahtar her zaman bir mülk adı ile takip edilmelidir!"; "İşaret eden eli daima değişken takip etmelidir!"; "Bir mesaj alıcısı bekleniyordu"; "Alıcıyı iki nokta üst üste izleyemez"; "Geçersiz soldan atama"]
    "Açılamıyor: %s " "Ayrıştırma hatası beklenmeyen %s  ( %s : %d )";
  mkL "tt" ["Чиктән тыш индекс"; "Белеп булмый"; "Нульгә бүлү"; "Команданы башкара алмый"; "Көтелгән [Исемлек]."; "Көтелгән [Код]."; "Көтелгән [Сан]."; "Көтелгән [Сызык]."; "Файлны ачканда хата"; "Ояланган шалтыратулар бик күп"; "Хәтер җитми"; "Кайтырга тиеш [Булан].
"; "Кайтырга тиеш [Сан].
"; "Кайтырга тиеш [Сызык].
"; "Ачкыч төгәл 16 байт булырга тиеш"]
    ["Хәбәр бик озын"; "Көтелгән [:].
"; "Көтелгән [хәбәр].
"; "Көтелгән [)].
"; "Көтелгән юл"; "Ачкыч һәрвакыт милек исеме белән булырга тиеш!"; "Кулны күрсәтү һәрвакыт үзгәрүчән булырга тиеш!"; "Хәбәр алучы көткән"; "Алучының артыннан ияреп булмый"; "Ялгыш эш"]
    "Ачып булмый: %s " "Хаталарны анализлау көтелмәгән %s  ( %s : %d )";
  mkL "ug" ["كۆرسەتكۈچ چەك"; "ئۆچۈرەلمىدى"; "بۆلۈش نۆل"; "بۇيرۇقنى ئىجرا قىلالمىدى"; "مۆلچەرلەنگەن [تىزىملىك]."; "مۆلچەرلەنگەن [كود]."; "مۆلچەرلەنگەن [سان]."; "مۆلچەرلەنگەن [String]."; "ھۆججەتنى ئاچقاندا خاتالىق"; "ئۇۋىسى بەك كۆپ"; "ئىچكى ساقلىغۇچ"; "چوقۇم قايتىشى كېرەك [Boolean].
"; "چوقۇم قايتىشى كېرەك [سان].
"; "چوقۇم قايتىشى كېرەك [String].
"; "ئاچقۇچ چوقۇم 16 بايىت ئۇزۇنلۇقتا بولۇشى كېرەك"]
    ["ئۇچۇر بەك ئۇزۇن"; "مۆلچەرلەنگەن [:].
"; "مۆلچەرلەنگەن [ئۇچۇر].
"; "مۆلچەرلەنگەن [)].
"; "مۆلچەردىكى قۇر"; "ئاچقۇچ ھەمىشە مۈلۈك ئىسمى بىلەن ئەگىشىشى كېرەك!"; "كۆرسەتكۈچ قول ھەمىشە ئۆزگەرگۈچى مىقدارغا ئەگىشىشى كېرەك!"; "ئۇچۇر تاپشۇرۇۋالغۇچىدىن ئۈمىد بار"; "تاپشۇرۇۋالغۇچى چوڭ ئۈچەيگە ئەگەشمەيدۇ"; "قالدۇق تاپشۇرۇق ئىناۋەتسىز"]
    "Unable to open: %s." "Parse error, unexpected %s ( %s: %d )
";
  mkL "uk" ["Індекс поза межами"; "Видалити неможливо"; "Ділення на нуль"; "Неможливо виконати команду"; "Очікувано [Список]."; "Очікувано [Код]."; "Очікувано [Номер]."; "Очікувано [Рядок]."; "Помилка під час відкриття файлу"; "Забагато вкладених дзвінків"; "Недостатньо помяті"; "Повинно повернутися [Булева].
"; "Повинно повернутися [Номер].
"; "Повинно повернутися [Рядок].
"; "Ключ повинен бути рівно 16 байт"]
    ["Повідомлення занадто довго"; "Очікувано [:].
"; "Очікувано [повідомлення].
"; "Очікувано [)].
"; "Очікуваний кінець рядка"; "Ключ повинен завжди дотримуватися імені властивості!"; "Вказівна рука завжди повинна дотримуватися змінної!"; "Очікуваний отримувач повідомлення"; "Одержувач не може супроводжуватися двокрапкою"; "Недійсне призначення лівої руки"]
    "Неможливо відкрити: %s " "Помилка розбору несподівана %s  ( %s : %d )";
  mkL "ur" ["حدود سے باہر انڈیکس۔"; "حذف کرنے سے قاصر ہے۔"; "صفر سے تقسیم"; "کمانڈ پر عملدرآمد کرنے سے قاصر ہے۔"; "متوقع [فہرست]."; "متوقع [کوڈ]."; "متوقع [نمبر]."; "متوقع [سٹرنگ]."; "فائل کھولتے وقت خامی۔"; "بہت سے گھریلو کالیں۔"; "میموری سے باہر"; "لوٹنا ہوگا [بولین].
"; "لوٹنا ہوگا [نمبر].
"; "لوٹنا ہوگا [سٹرنگ].
"; "کلید بالکل 16 بائٹ لمبا ہونی چاہئے۔"]
    ["پیغام بہت لمبا ہے۔"; "متوقع [:].
"; "متوقع [پیغام].
"; "متوقع [)].
"; "لائن کا اختتام متوقع"; "کلید کا ہمیشہ پراپرٹی کا نام ہونا چاہئے!"; "اشارہ کرنے والے ہاتھ کا ہمیشہ متغیر ہونا چاہئے!"; "پیغام وصول کنندہ کی توقع ہے۔"; "وصول کنندہ کے بعد بڑی آنت نہیں ہوسکتی ہے۔"; "بایاں ہاتھ کی غلط تفویض"]
    "Unable to open: %s." "Parse error, unexpected %s ( %s: %d )
";
  mkL "uz" ["Indeks chegaradan tashqarida"; "O'chirib bo'lmadi"; "Nolga bo'lish"; "Buyruqni bajarib bo'lmadi"; "Kutilgan [Ro‘yxat]."; "Kutilgan [Kod]."; "Kutilgan [Raqam]."; "Kutilgan [Qator]."; "Faylni ochishda xato"; "Ichki qo'ng'iroqlar juda ko'p"; "Xotiradan tashqarida"; "Qaytish kerak [Boolean].
"; "Qaytish kerak [Raqam].
"; "Qaytish kerak [Qator].
"; "Kalit aniq 16 bayt uzunlikda bo'lishi kerak"]
    ["Xabar juda uzun"; "Kutilgan [:].
"; "Kutilgan [xabar].
"; "Kutilgan [)].
"; "Kutilayotgan chiziq oxiri"; "Kalit har doim mulk nomidan keyin bo'lishi kerak!"; "Qo'l ishorasi doimo o'zgaruvchan bo'lishi kerak!"; "Xabar oluvchisi kutilmoqda"; "Qabul qiluvchini yo'g'on ichak bilan ta'qib qilish mumkin emas"; "Leftth belgisi noto‘g‘ri"]
    "Ochib bo'lmadi: %s " "Sintaktik xato kutilmagan %s  ( %s : %d )";
  mkL "vi" ["Chỉ số nằm ngoài giới hạn"; "Không thể xóa"; "Chia cho số không"; "Không thể thực thi lệnh"; "Hy vọng [Danh sách]."; "Hy vọng [Mã]."; "Hy vọng [Con số]."; "Hy vọng [Chuỗi]."; "Lỗi trong khi mở tệp"; "Quá nhiều cuộc gọi lồng nhau"; "Hết bộ nhớ"; "Phải trả lại [Boolean].
"; "Phải trả lại [Con số].
"; "Phải trả lại [Chuỗi].
"; "Khóa phải dài chính xác 16 byte"]
    ["Tin nhắn quá dài"; "Hy vọng [:].
"; "Hy vọng [thông điệp].
"; "Hy vọng [)].
"; "Dự kiến ​​cuối dòng"; "Key phải luôn được theo sau bởi một tên tài sản!"; "Chỉ tay phải luôn luôn được theo sau bởi biến!"; "Dự kiến ​​một người nhận tin nhắn"; "Người nhận không thể được theo sau bởi đại tràng"; "Chuyển nhượng lefthand không hợp lệ"]
    "Không thể mở: %s " "Lỗi phân tích cú pháp không mong muốn %s  ( %s : %d )";
  mkL "x3" ["Index out of bounds."; "Unable to delete."; "Division by zero."; "Unable to execute command."; "Expected list."; "Expected block."; "Expected number."; "Expected string."; "Error while opening the file.
"; "Too many nested calls."; "Out of memory."; "Must return a boolean."; "Must return a number."; "Must return a string."; "Key must be exactly 16 bytes long."]
    ["Message too long.
"; "Expected colon.
"; "Expected message.
"; "Expected ).
"; "Expected a dot (.).
"; "Key should always be followed by a property name!
"; "Pointing hand should always be followed by variable!
"; "Expected a message recipient.
"; "Recipient cannot be followed by colon.
"; "Invalid left-hand assignment.
"]
    "Unable to open: %s." "Parse error, unexpected %s ( %s: %d )
";
  mkL "x4" ["Index valt buiten bereik."; "Kan niet verwijderen."; "Deling door nul."; "Kan opdracht niet uitvoeren."; "Verwacht reeks."; "Verwacht codeblok."; "Verwacht getal."; "Verwacht tekst."; "Kan bestand niet openen.
"; "Teveel geneste aanroepen."; "Te weinig geheugen."; "Moet antwoorden met een waarheid."; "Moet antwoorden met een getal."; "Moet antwoorden met een tekst."; "Sleutel moet exact 16 bytes lang zijn."]
    ["Bericht te lang.
"; "Dubbele punt verwacht.
"; "Bericht verwacht.
"; "Verwacht: ).
"; "Punt verwacht (.).
"; "Sleutel moet altijd worden gevolgd door objecteigenschap.
"; "Aanwijzer moet gevolgd worden door variabele!
"; "Verwacht ontvanger voor bericht.
"; "Ontvanger kan niet worden gevolgd door dubbele punt.
"; "Ongeldige linkerhelft van toekenning.
"]
    "Kan niet openen: %s." "Taalfout, onverwacht symbool: %s ( %s: %d )
";
  mkL "xh" ["Isalathiso esiphuma kwimida"; "Ayikwazi ukucima"; "Yahlula ngokwe-zero"; "Ayikwazi ukwenza umyalelo"; "Ilindelwe [Uluhlu]."; "Ilindelwe [Ikhowudi]."; "Ilindelwe [Inani]."; "Ilindelwe [Umtya]."; "Impazamo ngelixa kuvulwa ifayile"; "Iifowuni ezininzi kakhulu ezenzelwe indawo"; "Ngapha kokungagcinwanga"; "Kufuneka ubuye [Boolean].
"; "Kufuneka ubuye [Inani].
"; "Kufuneka ubuye [Umtya].
"; "Isitshixo kufuneka sibengu-16 ubude"]
    ["Umyalezo mde kakhulu"; "Ilindelwe [:].
"; "Ilindelwe [umyalezo].
"; "Ilindelwe [)].
"; "Ukuphela komgca olindelekileyo"; "Isitshixo kufuneka sihlale silandelwa ngegama lepropathi!"; "Isandla sesikhombi kufuneka sihlale silandelwa ngokwahluka!"; "Ilindelwe ukuba ifumane umyalezo"; "Umamkeli akanakulandelwa yikholoni"; "Umsebenzi ongasasebenziyo"]
    "Ayikwazi ukuvula: %s " "Iphutha lomhlaba okungalindelekanga %s  ( %s : %d )";
  mkL "xx" ["Index out of bounds."; "Unable to delete."; "Division by zero."; "Unable to execute command."; "Expected list."; "Expected block."; "Expected number."; "Expected string."; "Error while opening the file.
"; "Too many nested calls."; "Out of memory."; "Must return a boolean."; "Must return a number."; "Must return a string."; "Key must be exactly 16 bytes long."]
    ["Message too long.
"; "Expected colon.
"; "Expected message.
"; "Expected ).
"; "Expected a dot (.).
"; "Key should always be followed by a property name!
"; "Pointing hand should always be followed by variable!
"; "Expected a message recipient.
"; "Recipient cannot be followed by colon.
"; "Invalid left-hand assignment.
"]
    "Unable to open: %s." "Parse error, unexpected %s ( %s: %d )
";
  mkL "yak" ["Индекс выходит за пределы."; "Невозможно удалить."; "Ноль түҥэтии."; "Невозможно выполнить команду."; "Күүтүллэр список."; "Күүтүллэр блок."; "Күүтүллэр число."; "Күүтүллэр строка."; "Ошибка при открытии файла.
"; "Слишком много вложенных вызовов."; "Недостаточно памяти."; "Должен возвращать логическое значение."; "Должен возвращать число."; "Должен возвращать строку."; "Ключ должен быть ровно 16 байт."]
    ["Сообщение слишком длинное.
"; "Күүтүллэр двоеточие (:).
"; "Күүтүллэр сообщение.
"; "Күүтүллэр ).
"; "Күүтүллэр точка (.).
"; "Ключ всегда должен сопровождаться названием свойства!
"; "Указывающая рука всегда должна сопровождаться переменной!
"; "Күүтүллэр получить сообщение.
"; "После получателя нельзя указывать двоеточие.
"; "Неверное левостороннее присвоение.
"]
    "Невозможно открыть: %s." "Непредвиденная ошибка синтаксического анализа: %s ( %s: %d )
";
  mkL "yi" ["אינדעקס אויס פון גווול"; "ניט געקענט אויסמעקן"; "אָפּטייל דורך נול"; "ניט געקענט צו דורכפירן באַפֿעלן"; "געריכט [רשימה]."; "געריכט [קאָד]."; "געריכט [נומער]."; "געריכט [שטריקל]."; "טעות בעשאַס עפן די טעקע"; "צו פילע נעסטעד רופט"; "אויס פון זיקאָרן"; "מוזן צוריקקומען [Boolean].
"; "מוזן צוריקקומען [נומער].
"; "מוזן צוריקקומען [שטריקל].
"; "דער שליסל מוזן זיין פּונקט 16 ביטעס"]
    ["אָנזאָג צו לאַנג"; "געריכט [:].
"; "געריכט [אָנזאָג].
"; "געריכט [)].
"; "דערוואַרט סוף פון די שורה"; "שליסל זאָל שטענדיק זיין נאכגעגאנגען דורך אַ פאַרמאָג נאָמען!"; "פּוינטינג האַנט זאָל שטענדיק זיין נאכגעגאנגען דורך בייַטעוודיק!"; "דערוואַרט אַ באַקומער"; "דער באַקומער קען נישט זיין נאכגעגאנגען דורך צווייפּינטל"; "פאַרקריפּלט אין דעם לינק"]
    "Unable to open: %s." "Parse error, unexpected %s ( %s: %d )
";
  mkL "yo" ["Atọka kuro ninu awọn aala"; "Ko le paarẹ"; "Pipin nipasẹ odo"; "Kò le ṣe pipaṣẹ"; "O ti ṣe yẹ [Atokọ]."; "O ti ṣe yẹ [Koodu]."; "O ti ṣe yẹ [Nọmba]."; "O ti ṣe yẹ [Okun]."; "Aṣiṣe lakoko ti o n ṣii faili naa"; "Pupọ awọn ipe oni-nọmba"; "Aini iranti"; "Gbọdọ pada [Boolean].
"; "Gbọdọ pada [Nọmba].
"; "Gbọdọ pada [Okun].
"; "Bọtini gbọdọ jẹ deede awọn baiti 16 deede"]
    ["Ifiranṣẹ gun ju"; "O ti ṣe yẹ [:].
"; "O ti ṣe yẹ [ifiranṣẹ].
"; "O ti ṣe yẹ [)].
"; "Opin opin laini"; "Bọtini yẹ ki o tẹle atẹle nigbagbogbo nipasẹ orukọ ohun-ini kan!"; "Ọwọ tọka nigbagbogbo yẹ ki o tẹle atẹle nipasẹ oniyipada!"; "Reti olugba ifiranṣẹ"; "Olugba ko le tẹle nipa oluṣafihan"; "Aṣayan afọwọkọ lilu"]
    "Ko lagbara lati ṣii: %s " "Aṣiṣe paarọ airotẹlẹ %s  ( %s : %d )";
  mkL "zh1" ["索引超出範圍。"; "無法刪除。"; "被零除。"; "無法執行命令。"; "預期 [清單]."; "預期 [_碼]."; "預期 [_數]."; "預期 [_串]."; "打開文件時出錯。"; "嵌套調用過多。"; "內存不足。"; "必須退貨 [布爾型].
"; "必須退貨 [_數].
"; "必須退貨 [_串].
"; "密鑰必須正好為16個字節長。"]
    ["訊息太長。"; "預期 [:].
"; "預期 [信息：__].
"; "預期 [)].
"; "預計行尾"; "鍵應始終跟隨一個屬性名稱！"; "指向指針時，必須始終跟隨變量！"; "預期的郵件收件人。"; "收件人後不能接冒號。"; "左手分配無效。"]
    "無法打開：%s。" "解析錯誤，意外的%s（%s：%d）";
  mkL "zh2" ["索引超出范围。"; "无法删除。"; "被零除。"; "无法执行命令。"; "预期 [清单]."; "预期 [_码]."; "预期 [_数]."; "预期 [_串]."; "打开文件时出错。"; "嵌套调用过多。"; "内存不足。"; "必须退货 [布尔型].
"; "必须退货 [_数].
"; "必须退货 [_串].
"; "密钥必须正好为16个字节长。"]
    ["讯息太长。"; "预期 [:].
"; "预期 [信息：__].
"; "预期 [)].
"; "预计行尾"; "键应始终跟随一个属性名称！"; "指向指针时，必须始终跟随变量！"; "预期的邮件收件人。"; "收件人后不能接冒号。"; "左手分配无效。"]
    "无法打开：%s。" "解析错误，意外的%s（%s：%d）";
  mkL "zu" ["Inkomba ephuma emikhawulweni"; "Ayikwazi ukususa"; "Hlukanisa ngu-zero"; "Ayikwazi ukwenza umyalo"; "Kulindelwe [Uhlu]."; "Kulindelwe [Ikhodi]."; "Kulindelwe [Inombolo]."; "Kulindelwe [Intambo]."; "Iphutha ngenkathi kuvulwa ifayela"; "Izingcingo eziningi kakhulu ezibekiwe"; "Kuphelelwe inkumbulo"; "Kufanele abuye [Boolean].
"; "Kufanele abuye [Inombolo].
"; "Kufanele abuye [Intambo].
"; "Ukhiye kufanele ube ngu-16 amabhayithi ubude"]
    ["Umlayezo mude kakhulu"; "Kulindelwe [:].
"; "Kulindelwe [umyalezo].
"; "Kulindelwe [)].
"; "Kulindelwe ukuphela komugqa"; "Ukhiye kufanele njalo ulandelwe ngegama lesakhiwo!"; "Isandla esikhomba ngaso sonke isikhathi kufanele silandelwe ngokuguquguqukayo!"; "Kulindwe umamukeli womlayezo"; "Umemukeli akakwazi ukulandelwa yikholoni"; "Isabelo sokunxele esingavumelekile"]
    "Ayikwazi ukuvula: %s " "Iphutha lokuhlunga okungalindelekile %s  ( %s : %d )"].
