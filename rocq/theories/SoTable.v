(** * SoTable: the Stack Overflow dictionary. GENERATED by tools/gen_tables.py. *)

From Verif Require Import Base.
Local Open Scope string_scope.

(** /repo/filters/stackoverflow/generated.go:5-2996 [mappings] *)
Definition so_mappings : list (string * string) :=
  [
   (".bash profile, bash function, bash script, bashrc, .bashrc, bash variables, bash alias", "bash");
   (".each", "each");
   (".htaccess", ".htaccess");
   (".net", ".net");
   (".net 3.5", ".net-3.5");
   (".net 4.0", ".net-4.0");
   (".net 4.5", ".net-4.5");
   (".net 4.5.1, .net 4.5.2", ".net-4.5");
   (".net assembly", ".net-assembly");
   (".net async await, async ctp, await", "async-await");
   (".net cf, cf.net", "compact-framework");
   (".net core", ".net-core");
   (".net framework 3.5", ".net-3.5");
   (".net framework 4.0, .net4", ".net-4.0");
   (".net generics, generic, java generics, swift generics, generic class, kotlin generics, scala generics", "generics");
   (".war, war files", "war");
   ("10g", "oracle10g");
   ("11g", "oracle11g");
   ("2d", "2d");
   ("3d", "3d");
   ("3d graphics", "3d");
   ("404", "http-status-code-404");
   ("64 bit", "64-bit");
   ("64bit, x64", "64-bit");
   ("a11y", "accessibility");
   ("absolute positioning, relative positioning, position fixed, css positioning", "css-position");
   ("abstract class", "abstract-class");
   ("abstract classes", "abstract-class");
   ("accdb, mdb, microsoft access", "ms-access");
   ("access vba", "access-vba");
   ("accessibility", "accessibility");
   ("accordion", "accordion");
   ("acegi", "spring-security");
   ("acf", "advanced-custom-fields");
   ("action", "action");
   ("actionbar", "android-actionbar");
   ("actionbarsherlock", "actionbarsherlock");
   ("actionlistener", "actionlistener");
   ("actions", "action");
   ("actionscript", "actionscript");
   ("actionscript 3", "actionscript-3");
   ("active directory", "active-directory");
   ("active record query, activerecord relation", "activerecord");
   ("activeadmin", "activeadmin");
   ("activemq", "activemq");
   ("activerecord", "activerecord");
   ("activex", "activex");
   ("activity, main activity", "android-activity");
   ("adapter", "adapter");
   ("adb", "adb");
   ("add", "add");
   ("admin", "admin");
   ("admob", "admob");
   ("ado.net", "ado.net");
   ("adobe", "adobe");
   ("adobe air", "air");
   ("adobe flex 4", "flex4");
   ("adobe flex, flex sdk", "apache-flex");
   ("ads", "ads");
   ("advanced custom fields", "advanced-custom-fields");
   ("advertising, advertisement", "ads");
   ("aem", "aem");
   ("aes", "aes");
   ("afnetworking", "afnetworking");
   ("aggregate", "aggregate");
   ("aggregate functions", "aggregate-functions");
   ("aggregation framework", "aggregation-framework");
   ("ahk", "autohotkey");
   ("ai", "artificial-intelligence");
   ("air", "air");
   ("airflow", "airflow");
   ("ajax", "ajax");
   ("ajax request, .ajax", "ajax");
   ("akka", "akka");
   ("alamofire", "alamofire");
   ("alarmmanager", "alarmmanager");
   ("alert", "alert");
   ("alertdialog", "android-alertdialog");
   ("alfresco", "alfresco");
   ("algorithm", "algorithm");
   ("algorithms, algorithm design", "algorithm");
   ("alias", "alias");
   ("align", "alignment");
   ("alignment", "alignment");
   ("amazon", "amazon");
   ("amazon cloudformation", "amazon-cloudformation");
   ("amazon cloudfront", "amazon-cloudfront");
   ("amazon cognito", "amazon-cognito");
   ("amazon dynamodb", "amazon-dynamodb");
   ("amazon ec2", "amazon-ec2");
   ("amazon elastic beanstalk", "amazon-elastic-beanstalk");
   ("amazon lambda", "aws-lambda");
   ("amazon rds", "amazon-rds");
   ("amazon redshift", "amazon-redshift");
   ("amazon s3", "amazon-s3");
   ("amazon sdk", "aws-sdk");
   ("amazon web services", "amazon-web-services");
   ("amd64", "x86-64");
   ("anaconda", "anaconda");
   ("analysis services", "ssas");
   ("analytics", "analytics");
   ("anchor", "anchor");
   ("android", "android");
   ("android actionbar", "android-actionbar");
   ("android activity", "android-activity");
   ("android alertdialog", "android-alertdialog");
   ("android animation", "android-animation");
   ("android apk", "apk");
   ("android arrayadapter", "android-arrayadapter");
   ("android asynctask", "android-asynctask");
   ("android broadcastreceiver", "broadcastreceiver");
   ("android camera", "android-camera");
   ("android canvas", "android-canvas");
   ("android compat lib", "android-support-library");
   ("android contentprovider", "android-contentprovider");
   ("android custom view", "android-custom-view");
   ("android debug bridge", "adb");
   ("android edittext", "android-edittext");
   ("android emulator", "android-emulator");
   ("android fragments", "android-fragments");
   ("android framework, android application, android ui, android device, android mobile, android api, android sdk", "android");
   ("android gradle", "android-gradle-plugin");
   ("android gradle plugin", "android-gradle-plugin");
   ("android imageview", "android-imageview");
   ("android intent", "android-intent");
   ("android intent flags, intents, intent", "android-intent");
   ("android layout", "android-layout");
   ("android layout xml", "android-layout");
   ("android linearlayout", "android-linearlayout");
   ("android listview", "android-listview");
   ("android manifest", "android-manifest");
   ("android mediaplayer", "android-mediaplayer");
   ("android navigation drawer", "navigation-drawer");
   ("android ndk", "android-ndk");
   ("android notifications", "android-notifications");
   ("android permissions", "android-permissions");
   ("android proguard", "proguard");
   ("android recyclerview", "android-recyclerview");
   ("android room", "android-room");
   ("android service", "android-service");
   ("android sharedpreferences", "sharedpreferences");
   ("android spinner", "android-spinner");
   ("android sqlite", "android-sqlite");
   ("android studio", "android-studio");
   ("android support library", "android-support-library");
   ("android textview", "textview");
   ("android view", "android-view");
   ("android viewpager", "android-viewpager");
   ("android volley", "android-volley");
   ("android webview", "android-webview");
   ("android widget", "android-widget");
   ("androidstudio settings", "android-studio");
   ("angular", "angular");
   ("angular cli", "angular-cli");
   ("angular material", "angular-material");
   ("angular ui bootstrap", "angular-ui-bootstrap");
   ("angular ui router", "angular-ui-router");
   ("angular.js, angular1.x", "angularjs");
   ("angular2 routing", "angular2-routing");
   ("angular5", "angular5");
   ("angular6", "angular6");
   ("angular7", "angular7");
   ("angular8", "angular8");
   ("angularjs", "angularjs");
   ("angularjs directive", "angularjs-directive");
   ("angularjs ng repeat", "angularjs-ng-repeat");
   ("angularjs scope", "angularjs-scope");
   ("angularjs2, angular2, angular4, angular4.x", "angular");
   ("animate, jquery animation", "jquery-animate");
   ("animated, rotateanimation, scaleanimation, animations", "animation");
   ("animation", "animation");
   ("annotation", "annotations");
   ("annotations", "annotations");
   ("ansible", "ansible");
   ("ansible playbook", "ansible");
   ("ant", "ant");
   ("antlr", "antlr");
   ("aop", "aop");
   ("apache", "apache");
   ("apache airflow", "airflow");
   ("apache ant", "ant");
   ("apache camel", "apache-camel");
   ("apache cassandra", "cassandra");
   ("apache cordova", "cordova");
   ("apache cxf", "cxf");
   ("apache flex", "apache-flex");
   ("apache flink", "apache-flink");
   ("apache hadoop", "hadoop");
   ("apache hive", "hive");
   ("apache jmeter", "jmeter");
   ("apache kafka", "apache-kafka");
   ("apache nifi", "apache-nifi");
   ("apache pig", "apache-pig");
   ("apache poi", "apache-poi");
   ("apache solr", "solr");
   ("apache spark", "apache-spark");
   ("apache spark sql", "apache-spark-sql");
   ("apache tomcat", "tomcat");
   ("apache zookeeper", "apache-zookeeper");
   ("apache2", "apache2");
   ("api", "api");
   ("api.ai", "dialogflow");
   ("apis", "api");
   ("apk", "apk");
   ("apns", "apple-push-notifications");
   ("app store", "app-store");
   ("app store connect", "app-store-connect");
   ("appc", "appcelerator");
   ("appcelerator", "appcelerator");
   ("append", "append");
   ("appendto", "append");
   ("appengine, gae, google app engine java", "google-app-engine");
   ("appium", "appium");
   ("apple push notifications", "apple-push-notifications");
   ("applescript", "applescript");
   ("applet", "applet");
   ("apply", "apply");
   ("appstoreconnect, itunesconnect, itunes connect", "app-store-connect");
   ("architecture", "architecture");
   ("arduino", "arduino");
   ("argument", "arguments");
   ("argument passing", "parameter-passing");
   ("arguments", "arguments");
   ("arm", "arm");
   ("arrayadapter", "android-arrayadapter");
   ("arraylist", "arraylist");
   ("arrays", "arrays");
   ("artificial intelligence", "artificial-intelligence");
   ("as3, as3 api", "actionscript-3");
   ("ascii", "ascii");
   ("asp classic", "asp-classic");
   ("asp net mvc2, asp.net mvc2, mvc2", "asp.net-mvc-2");
   ("asp.net", "asp.net");
   ("asp.net ajax", "asp.net-ajax");
   ("asp.net core", "asp.net-core");
   ("asp.net core 2.0", "asp.net-core-2.0");
   ("asp.net core mvc", "asp.net-core-mvc");
   ("asp.net core webapi", "asp.net-core-webapi");
   ("asp.net identity", "asp.net-identity");
   ("asp.net membership", "asp.net-membership");
   ("asp.net mvc", "asp.net-mvc");
   ("asp.net mvc 2", "asp.net-mvc-2");
   ("asp.net mvc 3", "asp.net-mvc-3");
   ("asp.net mvc 3 validation, mvc3", "asp.net-mvc-3");
   ("asp.net mvc 4", "asp.net-mvc-4");
   ("asp.net mvc 5", "asp.net-mvc-5");
   ("asp.net mvc 6, mvc core", "asp.net-core-mvc");
   ("asp.net mvc routing", "asp.net-mvc-routing");
   ("asp.net web api", "asp.net-web-api");
   ("asp.net web api2", "asp.net-web-api2");
   ("asp.net webforms, webform", "webforms");
   ("asp.net website, aspx, asp net, aspdotnet", "asp.net");
   ("aspect oriented", "aop");
   ("aspnet core, asp.net 5, asp.net vnext, asp net core", "asp.net-core");
   ("aspnet identity", "asp.net-identity");
   ("aspnet mvc, aspnet.mvc, asp.net.mvc, asp mvc, asp net mvc, asp.mvc, mvc.net", "asp.net-mvc");
   ("assembler, asm, assembly language", "assembly");
   ("assembly", "assembly");
   ("asset", "assets");
   ("asset pipeline", "asset-pipeline");
   ("assets", "assets");
   ("assets pipeline", "asset-pipeline");
   ("assignment", "variable-assignment");
   ("association", "associations");
   ("associations", "associations");
   ("asterisk", "asterisk");
   ("asymptotic complexity, complexity", "complexity-theory");
   ("async await", "async-await");
   ("asynchronous", "asynchronous");
   ("asynchronous processing, async, asynchronously", "asynchronous");
   ("asynctask", "android-asynctask");
   ("atom editor", "atom-editor");
   ("atscript", "typescript");
   ("attribute", "attributes");
   ("attributes", "attributes");
   ("audio", "audio");
   ("augmented reality", "augmented-reality");
   ("aurelia", "aurelia");
   ("aurelia framework, aurelia binding, aurelia navigation, aurelia router, aurelia validation, aurelia event aggregator, aurelia templating router, aurelia bundling, aurelia testing, aurelia ux, aurelia form", "aurelia");
   ("authentication", "authentication");
   ("authorisation", "authorization");
   ("authorization", "authorization");
   ("autocomplete", "autocomplete");
   ("autocompletion, autocompleter", "autocomplete");
   ("autofac", "autofac");
   ("autohotkey", "autohotkey");
   ("autolayout", "autolayout");
   ("automapper", "automapper");
   ("automated testing", "automated-tests");
   ("automated tests", "automated-tests");
   ("automatic ref counting", "automatic-ref-counting");
   ("automation", "automation");
   ("average", "average");
   ("avfoundation", "avfoundation");
   ("avg", "average");
   ("avplayer", "avplayer");
   ("awk", "awk");
   ("aws", "amazon-web-services");
   ("aws api gateway", "aws-api-gateway");
   ("aws cloudfront, cloudfront", "amazon-cloudfront");
   ("aws ec2, ec2", "amazon-ec2");
   ("aws lambda", "aws-lambda");
   ("aws rds", "amazon-rds");
   ("aws redshift, redshift", "amazon-redshift");
   ("aws sdk", "aws-sdk");
   ("awt", "awt");
   ("axios", "axios");
   ("azure", "azure");
   ("azure active directory", "azure-active-directory");
   ("azure cosmosdb", "azure-cosmosdb");
   ("azure devops", "azure-devops");
   ("azure documentdb", "azure-cosmosdb");
   ("azure functions", "azure-functions");
   ("azure pipelines", "azure-pipelines");
   ("azure sql database", "azure-sql-database");
   ("azure storage", "azure-storage");
   ("azure storage blobs", "azure-storage-blobs");
   ("azure web apps, azure app service", "azure-web-sites");
   ("azure web sites", "azure-web-sites");
   ("azuread", "azure-active-directory");
   ("babel", "babel");
   ("babeljs", "babeljs");
   ("backbone, backbonejs", "backbone.js");
   ("backbone.js", "backbone.js");
   ("backend", "backend");
   ("background", "background");
   ("background image", "background-image");
   ("backgroundworker", "backgroundworker");
   ("backup", "backup");
   ("bar chart", "bar-chart");
   ("bar graph, barplot", "bar-chart");
   ("base64", "base64");
   ("bash", "bash");
   ("batch file", "batch-file");
   ("batch process", "batch-processing");
   ("batch processing", "batch-processing");
   ("beans, bean", "javabeans");
   ("beautifulsoup", "beautifulsoup");
   ("big o", "big-o");
   ("big theta, o notation", "big-o");
   ("bigdata", "bigdata");
   ("binary", "binary");
   ("binary number, binary system", "binary");
   ("binary search tree", "binary-search-tree");
   ("binary tree", "binary-tree");
   ("binary trees", "binary-tree");
   ("bind", "bind");
   ("binding", "binding");
   ("bindings", "binding");
   ("bit manipulation", "bit-manipulation");
   ("bit twiddling, bitwise, bit fiddling", "bit-manipulation");
   ("bitbucket", "bitbucket");
   ("bitmap", "bitmap");
   ("biztalk", "biztalk");
   ("blackberry", "blackberry");
   ("ble", "bluetooth-lowenergy");
   ("blob", "blob");
   ("blobs", "blob");
   ("block", "block");
   ("blockchain", "blockchain");
   ("blocks", "block");
   ("bluetooth", "bluetooth");
   ("bluetooth lowenergy", "bluetooth-lowenergy");
   ("bokeh", "bokeh");
   ("bool", "boolean");
   ("boolean", "boolean");
   ("boost", "boost");
   ("boost asio", "boost-asio");
   ("bootstrap 4", "bootstrap-4");
   ("bootstrap framework", "twitter-bootstrap");
   ("bootstrap modal", "bootstrap-modal");
   ("border", "border");
   ("borders", "border");
   ("bot", "bots");
   ("botbuilder, botconnector", "botframework");
   ("botframework", "botframework");
   ("boto3", "boto3");
   ("bots", "bots");
   ("bourne shell", "sh");
   ("bower", "bower");
   ("box2d", "box2d");
   ("branch", "branch");
   ("branches, branching", "branch");
   ("brew", "homebrew");
   ("broadcastreceiver", "broadcastreceiver");
   ("browser", "browser");
   ("browser compatibility", "cross-browser");
   ("browser scrollbars, scrollbars", "scrollbar");
   ("bs4", "beautifulsoup");
   ("bsd sockets, socket programming, socket", "sockets");
   ("bst, binary search trees", "binary-search-tree");
   ("buffer", "buffer");
   ("buffers", "buffer");
   ("build", "build");
   ("build gradle", "build.gradle");
   ("build.gradle", "build.gradle");
   ("builds", "build");
   ("bundle", "bundle");
   ("bundler", "bundler");
   ("button", "button");
   ("buttons", "button");
   ("byte", "byte");
   ("bytearray, static array, swift array, arraycopy, javascript array, sub arrays, character arrays, jsonarray, char array, string array, mongodb arrays, array of objects, array", "arrays");
   ("bytes", "byte");
   ("c", "c");
   ("c preprocessor", "c-preprocessor");
   ("c#", "c#");
   ("c# 3.0", "c#-3.0");
   ("c# 4.0", "c#-4.0");
   ("c++", "c++");
   ("c++ cli", "c++-cli");
   ("c++0x", "c++11");
   ("c++11", "c++11");
   ("c++14", "c++14");
   ("c++17", "c++17");
   ("c++1y", "c++14");
   ("c++1z", "c++17");
   ("cache, cache coherence, cached", "caching");
   ("caching", "caching");
   ("cake", "cakephp");
   ("cakephp", "cakephp");
   ("cakephp 2.0", "cakephp-2.0");
   ("cakephp 3.0", "cakephp-3.0");
   ("calculator", "calculator");
   ("calendar", "calendar");
   ("calender", "calendar");
   ("call", "call");
   ("callback", "callback");
   ("callbacks", "callback");
   ("camel", "apache-camel");
   ("camera", "camera");
   ("canvas", "canvas");
   ("capistrano", "capistrano");
   ("capybara", "capybara");
   ("carousel", "carousel");
   ("carrierwave", "carrierwave");
   ("case", "case");
   ("case expression", "case");
   ("cassandra", "cassandra");
   ("casting", "casting");
   ("categories", "categories");
   ("category", "categories");
   ("cdi", "cdi");
   ("cdt", "eclipse-cdt");
   ("celery", "celery");
   ("cell", "cell");
   ("cells", "cell");
   ("center", "center");
   ("centos", "centos");
   ("centos7", "centos7");
   ("certificate", "certificate");
   ("cgi", "cgi");
   ("char", "char");
   ("character", "character");
   ("character encoding", "character-encoding");
   ("characters", "character");
   ("chars", "char");
   ("charset table", "character-encoding");
   ("chart.js", "chart.js");
   ("charting controls, charting, chart", "charts");
   ("charts", "charts");
   ("charts.js, chartjs", "chart.js");
   ("chat", "chat");
   ("checkbox", "checkbox");
   ("checkboxes", "checkbox");
   ("chef", "chef");
   ("chrome", "google-chrome");
   ("chromedriver", "selenium-chromedriver");
   ("ci", "continuous-integration");
   ("circle", "geometry");
   ("ckeditor", "ckeditor");
   ("clang", "clang");
   ("class", "class");
   ("class loading, classloaders", "classloader");
   ("classes", "class");
   ("classic asp", "asp-classic");
   ("classification", "classification");
   ("classifier", "classification");
   ("classloader", "classloader");
   ("classpath", "classpath");
   ("cli", "command-line-interface");
   ("click", "click");
   ("clicked", "click");
   ("clickonce", "clickonce");
   ("client", "client");
   ("client server", "client-server");
   ("clients", "client");
   ("clipboard", "clipboard");
   ("cljx, cljc, clj", "clojure");
   ("clojure", "clojure");
   ("clone", "clone");
   ("closure", "closures");
   ("closures", "closures");
   ("cloud", "cloud");
   ("cloud computing", "cloud");
   ("cloudformation, aws cloudformation", "amazon-cloudformation");
   ("clr", "clr");
   ("cluster analysis", "cluster-analysis");
   ("cluster computing", "cluster-computing");
   ("cluster, clusters", "cluster-computing");
   ("cmake", "cmake");
   ("cmd", "cmd");
   ("cmd script, batch, batch script, .bat, bat, dos batch, winbatch, windows batch, batch files", "batch-file");
   ("cmd.exe", "cmd");
   ("cms", "content-management-system");
   ("cocoa", "cocoa");
   ("cocoa touch", "cocoa-touch");
   ("cocoa touch framework", "cocoa-touch");
   ("cocoapods", "cocoapods");
   ("cocos2d", "cocos2d-iphone");
   ("cocos2d iphone", "cocos2d-iphone");
   ("cocos2d x", "cocos2d-x");
   ("code coverage", "code-coverage");
   ("code generation", "code-generation");
   ("code generator", "code-generation");
   ("code style, programming style, coding convention, clean code, ugly code, coding standards, coding guidelines, spaghetti code, code conventions", "coding-style");
   ("codeblocks", "codeblocks");
   ("codeigniter", "codeigniter");
   ("codeigniter 2", "codeigniter-2");
   ("codeigniter 3", "codeigniter-3");
   ("codeigniter hmvc, codeigniter routing, codeigniter form helper, codeigniter validation, codeigniter activerecord, codeigniter pagination, codeigniter url, codeigniter helpers, codeigniter hooks", "codeigniter");
   ("codenameone", "codenameone");
   ("coding style", "coding-style");
   ("coffee", "coffeescript");
   ("coffeescript", "coffeescript");
   ("cognito, aws cognito", "amazon-cognito");
   ("coldfusion", "coldfusion");
   ("collection, java collections api", "collections");
   ("collections", "collections");
   ("collision detection", "collision-detection");
   ("colors", "colors");
   ("colour, colours, color", "colors");
   ("com", "com");
   ("combination", "combinations");
   ("combinations", "combinations");
   ("combobox", "combobox");
   ("comboboxes", "combobox");
   ("comma separated, .csv, tsv", "csv");
   ("command", "command");
   ("command line", "command-line");
   ("command line arguments", "command-line-arguments");
   ("command line interface", "command-line-interface");
   ("command prompt", "command-prompt");
   ("commands", "command");
   ("comment", "comments");
   ("comments", "comments");
   ("common lisp", "common-lisp");
   ("compact framework", "compact-framework");
   ("compare", "compare");
   ("comparison", "comparison");
   ("compilation", "compilation");
   ("compiler construction", "compiler-construction");
   ("compiler error, compile errors, compile error, compilation errors, compilation error", "compiler-errors");
   ("compiler errors", "compiler-errors");
   ("compiler, compilers, compiler design", "compiler-construction");
   ("compiling, compile", "compilation");
   ("complexity theory", "complexity-theory");
   ("component", "components");
   ("component object model", "com");
   ("components", "components");
   ("composer", "composer-php");
   ("composer php", "composer-php");
   ("compositewpf", "prism");
   ("comprehension", "list-comprehension");
   ("compress, compressed, data compression, uncompress, decompress, decompression", "compression");
   ("compression", "compression");
   ("computer graphics, graphic", "graphics");
   ("computer science", "computer-science");
   ("computer vision", "computer-vision");
   ("concatenate", "concatenation");
   ("concatenation", "concatenation");
   ("concurrency", "concurrency");
   ("concurrent, concurency, concurrent programming, concurrency violation", "concurrency");
   ("conda", "conda");
   ("conditional statements", "conditional-statements");
   ("conditional, conditionals, conditions, condition", "conditional-statements");
   ("config", "config");
   ("configuration", "configuration");
   ("connection", "connection");
   ("connection string", "connection-string");
   ("connections", "connection");
   ("connectionstrings", "connection-string");
   ("console", "console");
   ("console application", "console-application");
   ("const", "const");
   ("constant", "constants");
   ("constants", "constants");
   ("constraint", "constraints");
   ("constraints", "constraints");
   ("constructor", "constructor");
   ("container", "containers");
   ("containers", "containers");
   ("content management system", "content-management-system");
   ("contextmenu", "contextmenu");
   ("continuous integration", "continuous-integration");
   ("control", "controls");
   ("controller", "controller");
   ("controllers", "controller");
   ("controls", "controls");
   ("conv neural network", "conv-neural-network");
   ("converter", "converter");
   ("convolutional neural network", "conv-neural-network");
   ("cookie", "cookies");
   ("cookies", "cookies");
   ("coordinate", "coordinates");
   ("coordinates", "coordinates");
   ("copy", "copy");
   ("cordova", "cordova");
   ("cordova plugins", "cordova-plugins");
   ("core animation", "core-animation");
   ("core data", "core-data");
   ("core graphics", "core-graphics");
   ("corona", "corona");
   ("coronasdk", "corona");
   ("cors", "cors");
   ("couchbase", "couchbase");
   ("couchdb", "couchdb");
   ("count", "count");
   ("counter", "counter");
   ("coverage", "code-coverage");
   ("cpanel", "cpanel");
   ("cpu", "cpu");
   ("cq5, day cq", "aem");
   ("crash", "crash");
   ("crashes, appcrash", "crash");
   ("create react app", "create-react-app");
   ("crlf", "newline");
   ("cron", "cron");
   ("cronjob, cronexpression, crontab", "cron");
   ("cross browser", "cross-browser");
   ("cross compile", "cross-compiling");
   ("cross compiling", "cross-compiling");
   ("cross domain", "cross-domain");
   ("cross origin", "cross-domain");
   ("cross platform", "cross-platform");
   ("cross site scripting, xss prevention", "xss");
   ("cross threading, multi threaded, threads, thread, threading, multithread", "multithreading");
   ("crud", "crud");
   ("cryptographic, crypto", "cryptography");
   ("cryptography", "cryptography");
   ("crystal reports", "crystal-reports");
   ("crystal, crystal report, sap crystal reports", "crystal-reports");
   ("cs", "computer-science");
   ("csharp, c# language, c sharp, c#.net, visual c#, .cs file", "c#");
   ("csrf", "csrf");
   ("css", "css");
   ("css animations", "css-animations");
   ("css flexbox", "flexbox");
   ("css float", "css-float");
   ("css grid", "css-grid");
   ("css grids", "css-grid");
   ("css keyframes", "css-animations");
   ("css position", "css-position");
   ("css selectors", "css-selectors");
   ("css transitions", "css-transitions");
   ("css3 transitions", "css-transitions");
   ("css3, css text shadow, css box shadow, css border radius, css border image, css text overflow, css font weight, css borders, dynamic css, css reset, cascading style sheet, css layout, css attributes, css background image, css validation, box model, style.css template file, css display, min height, min width, max height, max width, css centering, css line height, css overflow, css box model, font weight, alternate stylesheets, inline block, css menu, css classes, css height, css inheritance, css2, css columns", "css");
   ("csv", "csv");
   ("ctor, constructors", "constructor");
   ("ctypes", "ctypes");
   ("cucumber", "cucumber");
   ("cuda", "cuda");
   ("cuda kernel, cudamalloc", "cuda");
   ("curl", "curl");
   ("cursor", "cursor");
   ("custom control", "custom-controls");
   ("custom controls", "custom-controls");
   ("custom routes, route", "routes");
   ("customization", "customization");
   ("customize, customized", "customization");
   ("cxf", "cxf");
   ("cxx, cpp", "c++");
   ("cygwin", "cygwin");
   ("cypher", "cypher");
   ("cython", "cython");
   ("d3.js", "d3.js");
   ("d3v5, d3.js v4, d3v4, d3js, d3", "d3.js");
   ("dart", "dart");
   ("data binding", "data-binding");
   ("data clustering, clustering", "cluster-analysis");
   ("data science", "data-science");
   ("data structure", "data-structures");
   ("data structures", "data-structures");
   ("data visualization", "data-visualization");
   ("data.frame, dataframes, data frame", "dataframe");
   ("data.table", "data.table");
   ("database", "database");
   ("database architecture, table design, database modeling, schema design", "database-design");
   ("database connection", "database-connection");
   ("database design", "database-design");
   ("database migration", "database-migration");
   ("databases, db, database structure, dbms", "database");
   ("dataframe", "dataframe");
   ("datagrid", "datagrid");
   ("datagridview", "datagridview");
   ("dataset", "dataset");
   ("datasets", "dataset");
   ("datasource", "datasource");
   ("datatables", "datatables");
   ("datatype, type, datatypes", "types");
   ("date", "date");
   ("datepicker", "datepicker");
   ("datepicker ui, datapicker", "datepicker");
   ("dates", "date");
   ("datetime", "datetime");
   ("datetime operation, datetime manipulation, datetime functions", "datetime");
   ("dax", "dax");
   ("db2", "db2");
   ("ddd", "domain-driven-design");
   ("debian", "debian");
   ("debugger, debug", "debugging");
   ("debugging", "debugging");
   ("decimal", "decimal");
   ("decimals", "decimal");
   ("decode", "decode");
   ("decorator", "decorator");
   ("decorators", "decorator");
   ("deep learning", "deep-learning");
   ("default", "default");
   ("defaults", "default");
   ("delay", "delay");
   ("delayed", "delay");
   ("delegate", "delegates");
   ("delegates", "delegates");
   ("delphi", "delphi");
   ("dependencies", "dependencies");
   ("dependency", "dependencies");
   ("dependency injection", "dependency-injection");
   ("deploy", "deployment");
   ("deployment", "deployment");
   ("deserialization", "deserialization");
   ("design patterns", "design-patterns");
   ("devexpress", "devexpress");
   ("devise", "devise");
   ("devops", "devops");
   ("di", "dependency-injection");
   ("dialog", "dialog");
   ("dialogflow", "dialogflow");
   ("dialogs, dialogue, dialogbox", "dialog");
   ("dict, map, dictionaries", "dictionary");
   ("dictionary", "dictionary");
   ("diff", "diff");
   ("digital certificate, certificates", "certificate");
   ("directories, dir, folders, folder", "directory");
   ("directory", "directory");
   ("directx", "directx");
   ("discord", "discord");
   ("discord.js", "discord.js");
   ("distance", "distance");
   ("distinct", "distinct");
   ("django", "django");
   ("django admin", "django-admin");
   ("django fields, django imagefield", "django-models");
   ("django forms", "django-forms");
   ("django formsets, django modelforms, django modelform, django modelformsets", "django-forms");
   ("django models", "django-models");
   ("django queries, queryset", "django-queryset");
   ("django queryset", "django-queryset");
   ("django rest framework", "django-rest-framework");
   ("django template tags", "django-templates");
   ("django templates", "django-templates");
   ("django views", "django-views");
   ("dll", "dll");
   ("dll hell, dynamic link library, .dll, dlls", "dll");
   ("dnd, drag drop", "drag-and-drop");
   ("dns", "dns");
   ("docker", "docker");
   ("docker compose", "docker-compose");
   ("dockerfile", "dockerfile");
   ("docs", "documentation");
   ("doctrine", "doctrine");
   ("doctrine orm", "doctrine-orm");
   ("doctrine2", "doctrine-orm");
   ("documentation", "documentation");
   ("docusign", "docusignapi");
   ("docusignapi", "docusignapi");
   ("dojo", "dojo");
   ("dojo.data, dojo require, dojo.stateful, dojo layer, dojo store, dojox, dijit", "dojo");
   ("dom", "dom");
   ("dom events", "dom-events");
   ("domain driven design", "domain-driven-design");
   ("domains, domain", "dns");
   ("dot net, dotnet, .net framework", ".net");
   ("dotnetcore, dotnet core", ".net-core");
   ("dotnetnuke", "dotnetnuke");
   ("dotnetnuke settings, dotnetnuke module, dnn, evoq", "dotnetnuke");
   ("double", "double");
   ("double precision, floating point precision, numeric precision, finite precision", "precision");
   ("download", "download");
   ("downloading, downloads, file download", "download");
   ("dplyr", "dplyr");
   ("drag and drop", "drag-and-drop");
   ("draggable", "draggable");
   ("draw", "draw");
   ("drawing", "drawing");
   ("drf", "django-rest-framework");
   ("driver", "driver");
   ("drivers", "driver");
   ("drools", "drools");
   ("drop down menu", "drop-down-menu");
   ("dropbox", "dropbox");
   ("dropdown", "dropdown");
   ("dropdownlist, selectbox", "drop-down-menu");
   ("drracket, drscheme, plt scheme", "racket");
   ("drupal", "drupal");
   ("drupal 6", "drupal-6");
   ("drupal 7", "drupal-7");
   ("dsp, digital signal processing", "signal-processing");
   ("duplicate removal, duplication, duplicate content, duplicate detection, duplicate data, deduplication, ignore duplicates, no duplicates, duplicate, duplicate entry", "duplicates");
   ("duplicates", "duplicates");
   ("dynamic", "dynamic");
   ("dynamic programming", "dynamic-programming");
   ("dynamics crm", "dynamics-crm");
   ("dynamics crm 2011", "dynamics-crm-2011");
   ("dynamodb", "amazon-dynamodb");
   ("e commerce", "e-commerce");
   ("each", "each");
   ("echo", "echo");
   ("eclipse", "eclipse");
   ("eclipse cdt", "eclipse-cdt");
   ("eclipse plugin", "eclipse-plugin");
   ("eclipse plugin dev, eclipse plugins", "eclipse-plugin");
   ("eclipse rcp", "eclipse-rcp");
   ("eclipselink", "eclipselink");
   ("ecmascript 2015, es2015, es6 harmony, es6", "ecmascript-6");
   ("ecmascript 6", "ecmascript-6");
   ("ecommerce", "e-commerce");
   ("edge browser", "microsoft-edge");
   ("editor", "editor");
   ("edittext", "android-edittext");
   ("ef code first", "ef-code-first");
   ("ef4", "entity-framework-4");
   ("ejb", "ejb");
   ("ejs", "ejs");
   ("elastic", "elasticsearch");
   ("elastic beanstalk, aws elasticbeanstalk, beanstalk", "amazon-elastic-beanstalk");
   ("elasticsearch", "elasticsearch");
   ("electron", "electron");
   ("element", "element");
   ("elements", "element");
   ("elisp", "elisp");
   ("elixir", "elixir");
   ("elixir lang", "elixir");
   ("eloquent", "eloquent");
   ("emacs", "emacs");
   ("emacs lisp", "elisp");
   ("email", "email");
   ("embed", "embed");
   ("embedded", "embedded");
   ("embedded linux", "embedded-linux");
   ("embedded systems", "embedded");
   ("ember cli", "ember-cli");
   ("ember data", "ember-data");
   ("ember.js", "ember.js");
   ("emberjs, ember", "ember.js");
   ("emulate, emulator", "emulation");
   ("emulation", "emulation");
   ("encoding", "encoding");
   ("encodings", "encoding");
   ("encrypt, decryption, decrypt, deciphering, encrypted, data encryption, cipher", "encryption");
   ("encryption", "encryption");
   ("entity", "entity");
   ("entity framework", "entity-framework");
   ("entity framework 4", "entity-framework-4");
   ("entity framework 5", "entity-framework-5");
   ("entity framework 6", "entity-framework-6");
   ("entity framework 6.1, ef6", "entity-framework-6");
   ("entity framework 7, ef core", "entity-framework-core");
   ("entity framework core", "entity-framework-core");
   ("enumerations, enum", "enums");
   ("enums", "enums");
   ("env", "environment-variables");
   ("environment variables", "environment-variables");
   ("enzyme", "enzyme");
   ("erlang", "erlang");
   ("error handling", "error-handling");
   ("es6 promise", "es6-promise");
   ("escape character, unescape, escaped characters, escape sequence, character escaping, string escaping, double escaping, escape, escaped", "escaping");
   ("escaping", "escaping");
   ("eslint", "eslint");
   ("etl", "etl");
   ("eval", "eval");
   ("event", "events");
   ("event handlers, event handler", "event-handling");
   ("event handling", "event-handling");
   ("events", "events");
   ("ews, exchangews", "exchangewebservices");
   ("excel", "excel");
   ("excel 2007", "excel-2007");
   ("excel 2010", "excel-2010");
   ("excel formula", "excel-formula");
   ("excel macro", "excel-vba");
   ("excel vba", "excel-vba");
   ("exception", "exception");
   ("exceptions, exception handling, custom exceptions", "exception");
   ("exchange", "exchange-server");
   ("exchange server", "exchange-server");
   ("exchangewebservices", "exchangewebservices");
   ("exe", "exe");
   ("exec", "exec");
   ("executable", "executable");
   ("expandablelistview", "expandablelistview");
   ("expo", "expo");
   ("export", "export");
   ("export to csv", "export-to-csv");
   ("express", "express");
   ("expression", "expression");
   ("expressions", "expression");
   ("expressjs, express.js", "express");
   ("ext, sencha", "extjs");
   ("extension methods", "extension-methods");
   ("external", "external");
   ("externals", "external");
   ("extjs", "extjs");
   ("extjs4", "extjs4");
   ("extract", "extract");
   ("f#", "f#");
   ("fabricjs", "fabricjs");
   ("facebook", "facebook");
   ("facebook fql", "facebook-fql");
   ("facebook graph api", "facebook-graph-api");
   ("facebook graph, graph api", "facebook-graph-api");
   ("facebook javascript sdk", "facebook-javascript-sdk");
   ("facebook jssdk", "facebook-javascript-sdk");
   ("facebook like", "facebook-like");
   ("facebook login", "facebook-login");
   ("facebook opengraph", "facebook-opengraph");
   ("facebook php sdk", "facebook-php-sdk");
   ("facebook sdk ios, facebook api, facebook connect, facebook application, facebook sdk", "facebook");
   ("fancybox", "fancybox");
   ("faster, running time, speed, performance comparison, performance issues, slow, fast, perfomance, performance tuning, efficiency, speed up, slowness, tuning, wcf performance, linq performance, jquery performance, javascript performance, android performance, application performance, performance measurement, performance monitoring, code efficiency, slow load", "performance");
   ("fcm", "firebase-cloud-messaging");
   ("fetch", "fetch");
   ("ffmpeg", "ffmpeg");
   ("fft", "fft");
   ("fgrep, pgrep, egrep", "grep");
   ("field", "field");
   ("fields", "field");
   ("file", "file");
   ("file io", "file-io");
   ("file operations, fileinput, output file, input files, input file, outfile, infile, output files", "file-io");
   ("file upload", "file-upload");
   ("filename", "filenames");
   ("filenames", "filenames");
   ("files", "file");
   ("filesystem", "filesystems");
   ("filesystems", "filesystems");
   ("filter", "filter");
   ("filtering", "filtering");
   ("filters", "filter");
   ("find", "find");
   ("firebase", "firebase");
   ("firebase android", "firebase");
   ("firebase anonymous authentication", "firebase-authentication");
   ("firebase authentication", "firebase-authentication");
   ("firebase cloud firestore, firebase firestore, firestore, cloud firestore", "google-cloud-firestore");
   ("firebase cloud messaging", "firebase-cloud-messaging");
   ("firebase database", "firebase-realtime-database");
   ("firebase functions, firebase cloud functions", "google-cloud-functions");
   ("firebase realtime database", "firebase-realtime-database");
   ("firebase security", "firebase-security");
   ("firebase storage", "firebase-storage");
   ("firebird", "firebird");
   ("firefox", "firefox");
   ("firefox addon", "firefox-addon");
   ("firefox extension", "firefox-addon");
   ("firemonkey", "firemonkey");
   ("firestore rules, firebase security rules, firestore security rules", "firebase-security");
   ("fk relationship, foreign key, foreign key relationship", "foreign-keys");
   ("flash", "flash");
   ("flash builder", "flash-builder");
   ("flash ide, flash player, swf, adobe flash", "flash");
   ("flask", "flask");
   ("flask blueprint", "flask");
   ("flask sqlalchemy", "flask-sqlalchemy");
   ("flex4", "flex4");
   ("flexbox", "flexbox");
   ("flink", "apache-flink");
   ("float css, css clear", "css-float");
   ("floating point", "floating-point");
   ("fluent nhibernate", "fluent-nhibernate");
   ("flutter", "flutter");
   ("flutter layout", "flutter-layout");
   ("fmx", "firemonkey");
   ("focus", "focus");
   ("font", "fonts");
   ("font awesome", "font-awesome");
   ("font face", "font-face");
   ("fonts", "fonts");
   ("footer", "footer");
   ("for loop", "for-loop");
   ("foreach", "foreach");
   ("foreach loop, enhanced for loop", "foreach");
   ("foreign keys", "foreign-keys");
   ("fork", "fork");
   ("forking", "fork");
   ("format", "format");
   ("formating", "formatting");
   ("formats", "format");
   ("formatting", "formatting");
   ("forms", "forms");
   ("forms authentication", "forms-authentication");
   ("formsauthentication, form authentication", "forms-authentication");
   ("formula", "formula");
   ("formulas", "formula");
   ("fortran", "fortran");
   ("fql", "facebook-fql");
   ("fragment", "fragment");
   ("frame", "frame");
   ("framework", "frameworks");
   ("frameworks", "frameworks");
   ("frontend", "frontend");
   ("fsharp", "f#");
   ("ftp", "ftp");
   ("full text search", "full-text-search");
   ("fullcalendar", "fullcalendar");
   ("fullscreen", "fullscreen");
   ("fulltext searching, fulltext, fts", "full-text-search");
   ("function", "function");
   ("function overloading, method overloading, overload", "overloading");
   ("function pointers", "function-pointers");
   ("functional", "functional-programming");
   ("functional programming", "functional-programming");
   ("functions, def", "function");
   ("fxml", "fxml");
   ("g++", "g++");
   ("gae datastore, google datastore", "google-cloud-datastore");
   ("gallery", "gallery");
   ("game engine", "game-engine");
   ("game physics", "game-physics");
   ("garbage collection", "garbage-collection");
   ("gc, garbage collector", "garbage-collection");
   ("gcc", "gcc");
   ("gcd", "grand-central-dispatch");
   ("gce", "google-compute-engine");
   ("gcm, android gcm", "google-cloud-messaging");
   ("gcp, google cloud", "google-cloud-platform");
   ("gdb", "gdb");
   ("generator", "generator");
   ("generators", "generator");
   ("generics", "generics");
   ("geographical information", "gis");
   ("geojason", "geojson");
   ("geojson", "geojson");
   ("geolocation", "geolocation");
   ("geometry", "geometry");
   ("geospatial", "geospatial");
   ("get", "get");
   ("ggplot2", "ggplot2");
   ("gis", "gis");
   ("git", "git");
   ("github", "github");
   ("gitlab", "gitlab");
   ("gitlab ci", "gitlab-ci");
   ("gke, google container engine", "google-kubernetes-engine");
   ("glassfish", "glassfish");
   ("global", "global");
   ("global variable", "global-variables");
   ("global variables", "global-variables");
   ("glsl", "glsl");
   ("gmail", "gmail");
   ("gmail api", "gmail-api");
   ("gnu make", "gnu-make");
   ("gnumakefiles, gnumakefile, gmake", "gnu-make");
   ("gnuplot", "gnuplot");
   ("go", "go");
   ("golang, go language", "go");
   ("google admob", "admob");
   ("google analytics", "google-analytics");
   ("google analytics api", "google-analytics-api");
   ("google api", "google-api");
   ("google api oauth", "google-oauth");
   ("google apis", "google-api");
   ("google app engine", "google-app-engine");
   ("google apps script", "google-apps-script");
   ("google bigquery", "google-bigquery");
   ("google bigquery ml, python bigquery, bigquery ml, bigquery standard sql, bigquery", "google-bigquery");
   ("google calendar api", "google-calendar-api");
   ("google calendar api3, google calendar", "google-calendar-api");
   ("google charts, google charts api, google geochart, google linechart, google chartwrapper, google organization chart, google timeline chart", "google-visualization");
   ("google chrome", "google-chrome");
   ("google chrome devtools", "google-chrome-devtools");
   ("google chrome extension", "google-chrome-extension");
   ("google cloud dataflow", "google-cloud-dataflow");
   ("google cloud datastore", "google-cloud-datastore");
   ("google cloud firestore", "google-cloud-firestore");
   ("google cloud functions", "google-cloud-functions");
   ("google cloud messaging", "google-cloud-messaging");
   ("google cloud platform", "google-cloud-platform");
   ("google cloud storage", "google-cloud-storage");
   ("google collections, guava collections, google guava cache", "guava");
   ("google compute engine", "google-compute-engine");
   ("google drive api", "google-drive-api");
   ("google drive, google drive sdk, google drive api v3", "google-drive-api");
   ("google guice", "guice");
   ("google kubernetes engine", "google-kubernetes-engine");
   ("google mail", "gmail");
   ("google maps", "google-maps");
   ("google maps android api 2", "google-maps-android-api-2");
   ("google maps api 3", "google-maps-api-3");
   ("google maps api, gmaps", "google-maps");
   ("google maps markers", "google-maps-markers");
   ("google maps v3, google maps api v3", "google-maps-api-3");
   ("google oauth", "google-oauth");
   ("google places api", "google-places-api");
   ("google play", "google-play");
   ("google play services", "google-play-services");
   ("google plus", "google-plus");
   ("google protobuf, protobuf, protobufs", "protocol-buffers");
   ("google recaptcha", "recaptcha");
   ("google scripts, google script", "google-apps-script");
   ("google services, google services json", "google-play-services");
   ("google sheets", "google-sheets");
   ("google sheets formula", "google-sheets-formula");
   ("google spreadsheet, sheets", "google-sheets");
   ("google storage", "google-cloud-storage");
   ("google tag manager", "google-tag-manager");
   ("google visualization", "google-visualization");
   ("google web toolkit", "gwt");
   ("google+", "google-plus");
   ("gorm", "gorm");
   ("gps", "gps");
   ("gpu", "gpu");
   ("gradient", "gradient");
   ("gradients", "gradient");
   ("gradle", "gradle");
   ("grails", "grails");
   ("grails hasmany, grails orm", "gorm");
   ("grand central dispatch", "grand-central-dispatch");
   ("graph", "graph");
   ("graph theory", "graph-theory");
   ("graphics", "graphics");
   ("graphql", "graphql");
   ("graphs", "graph");
   ("greatest n per group", "greatest-n-per-group");
   ("grep", "grep");
   ("grid", "grid");
   ("gridview", "gridview");
   ("groovy", "groovy");
   ("groovygrails", "grails");
   ("group by", "group-by");
   ("group by all, group by time interval", "group-by");
   ("grouping", "grouping");
   ("grunt, grunt cli", "gruntjs");
   ("gruntjs", "gruntjs");
   ("gson", "gson");
   ("gst", "gstreamer");
   ("gstreamer", "gstreamer");
   ("gtk", "gtk");
   ("gtk+", "gtk");
   ("guava", "guava");
   ("guice", "guice");
   ("gulp", "gulp");
   ("gunicorn", "gunicorn");
   ("gwt", "gwt");
   ("gz", "gzip");
   ("gzip", "gzip");
   ("h2", "h2");
   ("hadoop", "hadoop");
   ("haml", "haml");
   ("handlebars", "handlebars.js");
   ("handlebars.js", "handlebars.js");
   ("handler", "handler");
   ("handlers", "handler");
   ("hash", "hash");
   ("hashing, hashes, hashalgorithm, string hashing, digest", "hash");
   ("hashmap", "hashmap");
   ("hashmaps", "hashmap");
   ("hashtable", "hashtable");
   ("haskell", "haskell");
   ("hbase", "hbase");
   ("hdfs", "hdfs");
   ("header", "header");
   ("headers", "header");
   ("heap", "heap");
   ("height", "height");
   ("heroku", "heroku");
   ("hex", "hex");
   ("hexadecimal notation, hexadecimal", "hex");
   ("hg", "mercurial");
   ("hibernate", "hibernate");
   ("hide", "hide");
   ("highcharts", "highcharts");
   ("highmaps, highstock", "highcharts");
   ("histogram", "histogram");
   ("hive", "hive");
   ("hiveql", "hiveql");
   ("homebrew", "homebrew");
   ("hook", "hook");
   ("hooking, hooks", "hook");
   ("hosting", "hosting");
   ("hover", "hover");
   ("hql", "hql");
   ("href", "href");
   ("htaccess, codeigniter htaccess", ".htaccess");
   ("html", "html");
   ("html agility pack", "html-agility-pack");
   ("html email", "html-email");
   ("html form, form", "forms");
   ("html lists", "html-lists");
   ("html option, html.dropdownlist, select tag", "html-select");
   ("html parsing", "html-parsing");
   ("html select", "html-select");
   ("html table", "html-table");
   ("html5 canvas", "html5-canvas");
   ("html5 video", "html5-video");
   ("htmldocument, html dom", "dom");
   ("htmlparser", "html-parsing");
   ("http", "http");
   ("http headers", "http-headers");
   ("http post", "http-post");
   ("http request", "httprequest");
   ("http status code 404", "http-status-code-404");
   ("httpclient", "httpclient");
   ("httpd", "apache");
   ("httprequest", "httprequest");
   ("httpresponse", "httpresponse");
   ("https", "https");
   ("httpurlconnection", "httpurlconnection");
   ("httpwebrequest", "httpwebrequest");
   ("hyperledger", "hyperledger");
   ("hyperledger fabric", "hyperledger-fabric");
   ("hyperlink", "hyperlink");
   ("i18n", "internationalization");
   ("ia32, 80x86, ia 32, pentium", "x86");
   ("iap", "in-app-purchase");
   ("ibm bluemix, bluemix", "ibm-cloud");
   ("ibm cloud", "ibm-cloud");
   ("ibm db2", "db2");
   ("ibm mobilefirst", "ibm-mobilefirst");
   ("ibm mq", "ibm-mq");
   ("ibm notes", "lotus-notes");
   ("ibm was, ibm", "websphere");
   ("icon", "icons");
   ("icons", "icons");
   ("ide", "ide");
   ("identityserver4", "identityserver4");
   ("ie, msie", "internet-explorer");
   ("ie11", "internet-explorer-11");
   ("ie7, ie7 bug, msie7", "internet-explorer-7");
   ("ie8, msie8", "internet-explorer-8");
   ("ie9", "internet-explorer-9");
   ("ienumerable", "ienumerable");
   ("if else, if else statement, if then else, if, else, if then, elseif, ifelse, if condition, if clause", "if-statement");
   ("if statement", "if-statement");
   ("ifft, fourier transform, fourier", "fft");
   ("iframe", "iframe");
   ("iframes", "iframe");
   ("igraph", "igraph");
   ("iis", "iis");
   ("iis 7", "iis-7");
   ("iis 7.5", "iis-7.5");
   ("iis7", "iis-7");
   ("image", "image");
   ("image processing", "image-processing");
   ("imagemagick", "imagemagick");
   ("imageview", "imageview");
   ("imap", "imap");
   ("immutability", "immutability");
   ("immutable, immutable class", "immutability");
   ("import", "import");
   ("importing, imports", "import");
   ("in app purchase", "in-app-purchase");
   ("include", "include");
   ("include files, includes", "include");
   ("index, indexes", "indexing");
   ("indexing", "indexing");
   ("inherit, inheritence", "inheritance");
   ("inheritance", "inheritance");
   ("initialization", "initialization");
   ("initialize, initialisation, uninitialized", "initialization");
   ("inline", "inline");
   ("inner join", "inner-join");
   ("inno setup", "inno-setup");
   ("innodb", "innodb");
   ("input", "input");
   ("input output", "io");
   ("inputs", "input");
   ("inputstream", "inputstream");
   ("insert", "insert");
   ("insert into", "sql-insert");
   ("inserts", "insert");
   ("instagram", "instagram");
   ("install", "install");
   ("installation", "installation");
   ("installer", "installer");
   ("instance", "instance");
   ("instances", "instance");
   ("int", "int");
   ("integer", "integer");
   ("integers", "integer");
   ("integration", "integration");
   ("integration testing", "integration-testing");
   ("integration tests", "integration-testing");
   ("intellij 2016.1, intellij", "intellij-idea");
   ("intellij idea", "intellij-idea");
   ("intellisense", "intellisense");
   ("interface", "interface");
   ("interface builder", "interface-builder");
   ("interfaces", "interface");
   ("internationalization", "internationalization");
   ("internet explorer", "internet-explorer");
   ("internet explorer 11", "internet-explorer-11");
   ("internet explorer 7", "internet-explorer-7");
   ("internet explorer 8", "internet-explorer-8");
   ("internet explorer 9", "internet-explorer-9");
   ("interop", "interop");
   ("interoperability", "interop");
   ("interpolate", "interpolation");
   ("interpolation", "interpolation");
   ("interprocess communicatio, inter process communicat", "ipc");
   ("inversion of control", "inversion-of-control");
   ("io", "io");
   ("iobserver, iobservable, rx, reactive extensions", "system.reactive");
   ("ioc", "inversion-of-control");
   ("ionic", "ionic-framework");
   ("ionic framework", "ionic-framework");
   ("ionic2", "ionic2");
   ("ionic3", "ionic3");
   ("ionic4", "ionic4");
   ("ios", "ios");
   ("ios simulator", "ios-simulator");
   ("ios4", "ios4");
   ("ios5", "ios5");
   ("ios5 compatibility, iphone sdk 5.0, ios 5.0, ios5 sdk", "ios5");
   ("ios6", "ios6");
   ("ios7", "ios7");
   ("ios8", "ios8");
   ("ios9", "ios9");
   ("ip", "ip");
   ("ip address", "ip-address");
   ("ipad", "ipad");
   ("ipad sdk, ipad splitview, ipad ui", "ipad");
   ("ipad simulator, iphone simulator", "ios-simulator");
   ("ipc", "ipc");
   ("iphone", "iphone");
   ("iphone os, apple ios, ios sdk", "ios");
   ("iphone sdk 4.0, iphone sdk 4, ios4.0.1, ios4.3, ios4.1, iphone os 4.0, iphone os 4, ios 4.0", "ios4");
   ("iphone sdk 6.0", "ios6");
   ("iphone sdk, iphone development, iphone app, iphone programming, iphone web, iphone ios", "iphone");
   ("ipython", "ipython");
   ("ipython notebook", "jupyter-notebook");
   ("iteration", "iteration");
   ("iterative", "iteration");
   ("iterator", "iterator");
   ("iterators, listiterator", "iterator");
   ("itext", "itext");
   ("itextpdf, itextsharp", "itext");
   ("j2me, jme", "java-me");
   ("jabber", "xmpp");
   ("jackson", "jackson");
   ("jakarta ee", "jakarta-ee");
   ("jar", "jar");
   ("jars, .jar", "jar");
   ("jasmine", "jasmine");
   ("jasper reports", "jasper-reports");
   ("java", "java");
   ("java 8", "java-8");
   ("java applet, applets", "applet");
   ("java ee, java ee web profile, jee, j2ee", "jakarta-ee");
   ("java me", "java-me");
   ("java native interface", "java-native-interface");
   ("java persistence api", "jpa");
   ("java stream", "java-stream");
   ("java swing, javax.swing", "swing");
   ("java util scanner", "java.util.scanner");
   ("java.util.scanner", "java.util.scanner");
   ("javabeans", "javabeans");
   ("javafx", "javafx");
   ("javafx 2", "javafx-2");
   ("javafx 8", "javafx-8");
   ("javamail", "javamail");
   ("javascript", "javascript");
   ("javascript disabled, javascript alert, javascript dom, javascript library, javascript runtime, classic javascript, ecmascript, js, .js, javascript execution, vanilla javascript, javascript module, vanilla js, vanillajs", "javascript");
   ("javascript event", "javascript-events");
   ("javascript events", "javascript-events");
   ("javascript objects", "javascript-objects");
   ("javascriptobject", "javascript-objects");
   ("javax.mail", "javamail");
   ("jax rs", "jax-rs");
   ("jax ws", "jax-ws");
   ("jaxb", "jaxb");
   ("jaxb2", "jaxb");
   ("jboss", "jboss");
   ("jboss as 7", "jboss7.x");
   ("jboss netty", "netty");
   ("jboss7.x", "jboss7.x");
   ("jbutton", "jbutton");
   ("jdbc", "jdbc");
   ("jdbc driver", "jdbc");
   ("jdk8, jdk1.8, jdk1.8.0", "java-8");
   ("jekyll", "jekyll");
   ("jenkins", "jenkins");
   ("jenkins pipeline", "jenkins-pipeline");
   ("jenkins plugins", "jenkins-plugins");
   ("jenkins workflow, jenkinsfile", "jenkins-pipeline");
   ("jersey", "jersey");
   ("jestjs", "jestjs");
   ("jetty", "jetty");
   ("jframe", "jframe");
   ("jhipster", "jhipster");
   ("jinja", "jinja2");
   ("jinja2", "jinja2");
   ("jira", "jira");
   ("jlabel", "jlabel");
   ("jmeter", "jmeter");
   ("jms", "jms");
   ("jni", "java-native-interface");
   ("join", "join");
   ("joomla", "joomla");
   ("jpa", "jpa");
   ("jpa 2", "jpa-2.0");
   ("jpa 2.0", "jpa-2.0");
   ("jpanel", "jpanel");
   ("jpeg", "jpeg");
   ("jpg", "jpeg");
   ("jq", "jq");
   ("jqgrid", "jqgrid");
   ("jqm", "jquery-mobile");
   ("jquery", "jquery");
   ("jquery animate", "jquery-animate");
   ("jquery core, jquery live, jquery callback, jquery after, jquery hasclass, jquery get, jquery post, toggleclass, removeclass, jquery css, jquery find, addclass, jquery filter, jquery effects", "jquery");
   ("jquery datatables", "datatables");
   ("jquery grid", "jqgrid");
   ("jquery mobile", "jquery-mobile");
   ("jquery plugin", "jquery-plugins");
   ("jquery plugins", "jquery-plugins");
   ("jquery select2", "jquery-select2");
   ("jquery selector", "jquery-selectors");
   ("jquery selectors", "jquery-selectors");
   ("jquery ui", "jquery-ui");
   ("jquery ui sortable", "jquery-ui-sortable");
   ("jquery validate", "jquery-validate");
   ("jquery validation plugin", "jquery-validate");
   ("jrxml, jasperprint, jasper", "jasper-reports");
   ("jsf", "jsf");
   ("jsf 2", "jsf-2");
   ("jsf2.0", "jsf-2");
   ("json", "json");
   ("json parsing, json encode, json decode, jsonobject", "json");
   ("json web token", "jwt");
   ("json.net", "json.net");
   ("jsonp", "jsonp");
   ("jsoup", "jsoup");
   ("jsp", "jsp");
   ("jstl", "jstl");
   ("jsx", "jsx");
   ("jtable", "jtable");
   ("julia", "julia");
   ("julia lang, julialang", "julia");
   ("junit", "junit");
   ("junit4", "junit4");
   ("jupyter", "jupyter");
   ("jupyter notebook", "jupyter-notebook");
   ("jvm", "jvm");
   ("jwt", "jwt");
   ("k8s", "kubernetes");
   ("kafka", "apache-kafka");
   ("karma jasmine", "karma-jasmine");
   ("karma runner", "karma-runner");
   ("kendo", "kendo-ui");
   ("kendo grid", "kendo-grid");
   ("kendo ui", "kendo-ui");
   ("keras", "keras");
   ("kerberos", "kerberos");
   ("kernel", "kernel");
   ("kernel programming", "kernel");
   ("key", "key");
   ("keyboard", "keyboard");
   ("keyboard shortcuts", "keyboard-shortcuts");
   ("keyboards", "keyboard");
   ("keys", "key");
   ("kibana", "kibana");
   ("kivy", "kivy");
   ("knitr", "knitr");
   ("knockout, knockoutjs, ko.observablearray", "knockout.js");
   ("knockout.js", "knockout.js");
   ("kotlin", "kotlin");
   ("kubernetes", "kubernetes");
   ("l2e", "linq-to-entities");
   ("label", "label");
   ("labels", "label");
   ("lambda", "lambda");
   ("lambda expressions, lambda functions", "lambda");
   ("language agnostic", "language-agnostic");
   ("language independent", "language-agnostic");
   ("language integrated query, linq query syntax", "linq");
   ("language lawyer", "language-lawyer");
   ("language processing, natural language, computational linguistics, natural language process, text analysis, natural language processing", "nlp");
   ("laravel", "laravel");
   ("laravel 4", "laravel-4");
   ("laravel 5", "laravel-5");
   ("laravel 5.5, laravel 5.4, laravel 5.3, laravel 5.2, laravel 5.1", "laravel-5");
   ("laravel eloquent", "eloquent");
   ("latex", "latex");
   ("layout", "layout");
   ("layouts, htmllayout, html layout", "layout");
   ("lazy load, lazyload", "lazy-loading");
   ("lazy loading", "lazy-loading");
   ("ldap", "ldap");
   ("leaflet", "leaflet");
   ("left join", "left-join");
   ("left outer join", "left-join");
   ("legend", "legend");
   ("less", "less");
   ("lesscss", "less");
   ("libgdx", "libgdx");
   ("liferay", "liferay");
   ("limit", "limit");
   ("limits", "limit");
   ("line", "line");
   ("linear algebra", "linear-algebra");
   ("linear regression", "linear-regression");
   ("linearlayout", "android-linearlayout");
   ("lines", "line");
   ("linked list", "linked-list");
   ("linkedin", "linkedin");
   ("linker", "linker");
   ("linker errors", "linker-errors");
   ("linking", "linker");
   ("linking errors, link errors", "linker-errors");
   ("links, link, hyperlinks", "hyperlink");
   ("linq", "linq");
   ("linq entity framework, ef, entity framework mapping, sql to entity framework, entity framework designer, fluent entity framework", "entity-framework");
   ("linq to entities", "linq-to-entities");
   ("linq to sql", "linq-to-sql");
   ("linq to xml", "linq-to-xml");
   ("linux", "linux");
   ("linux device driver", "linux-device-driver");
   ("linux kernel", "linux-kernel");
   ("lisp", "lisp");
   ("list", "list");
   ("list comprehension", "list-comprehension");
   ("listbox", "listbox");
   ("listener", "listener");
   ("listeners", "listener");
   ("lists, ilist, python list", "list");
   ("listview", "listview");
   ("llvm", "llvm");
   ("load", "load");
   ("load balancer, load balance", "load-balancing");
   ("load balancing", "load-balancing");
   ("loading", "loading");
   ("local", "local");
   ("local storage", "local-storage");
   ("locale", "locale");
   ("localhost", "localhost");
   ("localisation, localize, l10n", "localization");
   ("localization", "localization");
   ("location", "location");
   ("lock", "locking");
   ("locking", "locking");
   ("lodash", "lodash");
   ("lodash es", "lodash");
   ("log4j", "log4j");
   ("log4j2", "log4j2");
   ("log4net", "log4net");
   ("logback", "logback");
   ("logger, log, logs", "logging");
   ("logging", "logging");
   ("logic", "logic");
   ("login, user authentication, client authentication, authenticate, auth, logon", "authentication");
   ("logstash", "logstash");
   ("loop, looping, iterate", "loops");
   ("loops", "loops");
   ("lotus notes", "lotus-notes");
   ("lstm", "lstm");
   ("lua", "lua");
   ("lucene", "lucene");
   ("lucene index", "lucene");
   ("lwjgl", "lwjgl");
   ("lxml", "lxml");
   ("machine learning", "machine-learning");
   ("machine vision, cv", "computer-vision");
   ("macos", "macos");
   ("macro, custom macros", "macros");
   ("macros", "macros");
   ("magento", "magento");
   ("magento 1.7", "magento-1.7");
   ("magento 1.9", "magento-1.9");
   ("magento upgrade, magento admin, magento widgets, magento module, magento enterprise, magento catalog, magento theming, magento extension", "magento");
   ("magento2", "magento2");
   ("mail", "email");
   ("makefile", "makefile");
   ("makefiles, make", "makefile");
   ("malloc", "malloc");
   ("mamp", "mamp");
   ("manifest", "manifest");
   ("many to many", "many-to-many");
   ("mapbox", "mapbox");
   ("mapkit", "mapkit");
   ("mapping", "mapping");
   ("mappings", "mapping");
   ("mapreduce", "mapreduce");
   ("maps", "maps");
   ("margin", "margin");
   ("mariadb", "mariadb");
   ("markdown", "markdown");
   ("market, google play store, android market", "google-play");
   ("marklogic", "marklogic");
   ("marshaling, marshal", "marshalling");
   ("marshalling", "marshalling");
   ("mata", "stata");
   ("match", "match");
   ("material design", "material-design");
   ("material theme", "material-design");
   ("material ui", "material-ui");
   ("materialize", "materialize");
   ("materializecss, materialize css, materialize js", "materialize");
   ("math", "math");
   ("mathematics, maths, mathematical, arithmetic", "math");
   ("matlab", "matlab");
   ("matlab figure", "matlab-figure");
   ("matlab toolbox, mlint, m file, matlab path, matlab ide", "matlab");
   ("matplotlib", "matplotlib");
   ("matrices", "matrix");
   ("matrix", "matrix");
   ("maven", "maven");
   ("maven 2", "maven-2");
   ("maven 3", "maven-3");
   ("maven plugin", "maven-plugin");
   ("max", "max");
   ("maximum", "max");
   ("md5", "md5");
   ("mdx", "mdx");
   ("mean stack", "mean-stack");
   ("media", "media");
   ("media player", "media-player");
   ("media queries", "media-queries");
   ("media query", "media-queries");
   ("mediawiki", "mediawiki");
   ("memcache", "memcached");
   ("memcached", "memcached");
   ("memory", "memory");
   ("memory leak", "memory-leaks");
   ("memory leaks", "memory-leaks");
   ("memory management", "memory-management");
   ("memory usage, memory allocation, memory deallocation", "memory-management");
   ("menu", "menu");
   ("menus", "menu");
   ("mercurial", "mercurial");
   ("merge", "merge");
   ("merging", "merge");
   ("message", "message");
   ("message queue", "message-queue");
   ("messages", "message");
   ("metadata", "metadata");
   ("metaprogramming", "metaprogramming");
   ("meteor", "meteor");
   ("meteor.js, meteorjs", "meteor");
   ("method", "methods");
   ("method overriding, function overriding, overrides, override", "overriding");
   ("methods", "methods");
   ("metro ui, metro, metro style app", "microsoft-metro");
   ("mfc", "mfc");
   ("microservices", "microservices");
   ("microsoft edge", "microsoft-edge");
   ("microsoft graph", "microsoft-graph");
   ("microsoft metro", "microsoft-metro");
   ("microsoft office", "ms-office");
   ("microsoft office outlook, outlook express", "outlook");
   ("microsoft powerpoint, ppt, pptx, mspowerpoint", "powerpoint");
   ("microsoft visual c++, vc, vc++.net, msvc++, msvc, vc++", "visual-c++");
   ("microsoft word, winword", "ms-word");
   ("microsoftgraph, ms graph", "microsoft-graph");
   ("migration", "migration");
   ("migrations", "migration");
   ("mime content type, mime type", "mime-types");
   ("mime types", "mime-types");
   ("mingw", "mingw");
   ("mips", "mips");
   ("mkmapkit", "mapkit");
   ("mkmapview", "mkmapview");
   ("mma, wri mathematica, wolfram, mathematica", "wolfram-mathematica");
   ("mobile", "mobile");
   ("mobile safari", "mobile-safari");
   ("mobilefirst, worklight", "ibm-mobilefirst");
   ("mocha", "mocha");
   ("mocking", "mocking");
   ("mocking framework, mock, mocks", "mocking");
   ("mockito", "mockito");
   ("mod rewrite", "mod-rewrite");
   ("mod wsgi", "mod-wsgi");
   ("modal", "modal-dialog");
   ("modal dialog", "modal-dialog");
   ("model", "model");
   ("model view controller", "model-view-controller");
   ("model view viewmodel", "mvvm");
   ("models", "model");
   ("module", "module");
   ("modules", "module");
   ("moment.js", "momentjs");
   ("momentjs", "momentjs");
   ("monad", "monads");
   ("monads", "monads");
   ("mongo, mongod", "mongodb");
   ("mongodb", "mongodb");
   ("mongodb aggregation", "aggregation-framework");
   ("mongodb query", "mongodb-query");
   ("mongoid", "mongoid");
   ("mongoose", "mongoose");
   ("monitoring", "monitoring");
   ("mono", "mono");
   ("monodroid", "xamarin.android");
   ("monotouch", "xamarin.ios");
   ("moq", "moq");
   ("moss 2007", "sharepoint-2007");
   ("mouse", "mouse");
   ("mouseevent", "mouseevent");
   ("movie, movies, videos", "video");
   ("mp3", "mp3");
   ("mpi", "mpi");
   ("mqseries, websphere mq", "ibm-mq");
   ("mqtt", "mqtt");
   ("ms access", "ms-access");
   ("ms access 2007", "ms-access-2007");
   ("ms access 2010", "ms-access-2010");
   ("ms office", "ms-office");
   ("ms sql server, mssql, sql srever", "sql-server");
   ("ms word", "ms-word");
   ("msbuild", "msbuild");
   ("mscrm, microsoft dynamics crm", "dynamics-crm");
   ("msi", "windows-installer");
   ("mssql ce, sql ce, sql compact, sql server compact, sql mobile", "sql-server-ce");
   ("mssql2005, sql2005", "sql-server-2005");
   ("msvc11, visual studio 11, vs11, vs2011, vs2012", "visual-studio-2012");
   ("mule", "mule");
   ("multi column", "multiple-columns");
   ("multidimensional array", "multidimensional-array");
   ("multipart form", "multipartform-data");
   ("multipartform data", "multipartform-data");
   ("multiple backgrounds", "background-image");
   ("multiple columns", "multiple-columns");
   ("multiple regression", "linear-regression");
   ("multiprocessing", "multiprocessing");
   ("multithreading", "multithreading");
   ("mutex", "mutex");
   ("mvc", "model-view-controller");
   ("mvc4", "asp.net-mvc-4");
   ("mvc5", "asp.net-mvc-5");
   ("mvn", "maven");
   ("mvvm", "mvvm");
   ("mvvmcross", "mvvmcross");
   ("myphpadmin", "phpmyadmin");
   ("mysql", "mysql");
   ("mysql query, my sql, mysqld, mysqlclient, mysql server, mysql table, mysql if, mysqlsh, mysqldump", "mysql");
   ("mysql workbench", "mysql-workbench");
   ("mysqli", "mysqli");
   ("namespace, namespacing", "namespaces");
   ("namespaces", "namespaces");
   ("naming conventions", "naming-conventions");
   ("nasm", "nasm");
   ("native", "native");
   ("nativescript", "nativescript");
   ("navbar", "navbar");
   ("navigation", "navigation");
   ("navigation drawer", "navigation-drawer");
   ("nawk, mawk, awk formatting, gawk", "awk");
   ("ndk", "android-ndk");
   ("negative margin", "margin");
   ("neo4j", "neo4j");
   ("neo4j2.0", "neo4j");
   ("nested", "nested");
   ("nested array, rectangular arrays, ndarray, 2d array, 3d array, multidimensional", "multidimensional-array");
   ("nested loops", "nested-loops");
   ("nesting", "nested");
   ("netbeans", "netbeans");
   ("netlogo", "netlogo");
   ("netsuite", "netsuite");
   ("netty", "netty");
   ("network programming", "network-programming");
   ("network, networks", "networking");
   ("networking", "networking");
   ("networkx", "networkx");
   ("neural network", "neural-network");
   ("neural network tuning, multi layer perceptron", "neural-network");
   ("newline", "newline");
   ("newtonsoft", "json.net");
   ("nfc", "nfc");
   ("ng repeat", "angularjs-ng-repeat");
   ("nginx", "nginx");
   ("nhibernate", "nhibernate");
   ("nifi", "apache-nifi");
   ("nil, nullvalue, nulls", "null");
   ("ninject", "ninject");
   ("nlp", "nlp");
   ("nltk", "nltk");
   ("node modules", "node-modules");
   ("node.js", "node.js");
   ("nodejs, io.js", "node.js");
   ("nodes", "nodes");
   ("nokogiri", "nokogiri");
   ("non const", "const");
   ("nosql", "nosql");
   ("notepad++", "notepad++");
   ("notification", "notifications");
   ("notifications", "notifications");
   ("npm", "npm");
   ("npm install", "npm-install");
   ("npmjs", "npm");
   ("nsarray", "nsarray");
   ("nsdate", "nsdate");
   ("nsdictionary", "nsdictionary");
   ("nsmutablearray", "nsmutablearray");
   ("nsstring", "nsstring");
   ("nsurlconnection", "nsurlconnection");
   ("nsuserdefaults", "nsuserdefaults");
   ("nth of type, css sibling, nth child, first child, last child, css combinators, pseudo selectors, selectors, first of type, last of type", "css-selectors");
   ("nuget", "nuget");
   ("null", "null");
   ("nullpointerexception", "nullpointerexception");
   ("number", "numbers");
   ("numbers", "numbers");
   ("numpy", "numpy");
   ("nunit", "nunit");
   ("nuxt", "nuxt.js");
   ("nuxt.js", "nuxt.js");
   ("oauth", "oauth");
   ("oauth 2.0", "oauth-2.0");
   ("oauth2", "oauth-2.0");
   ("objc", "objective-c");
   ("objc arc, arc", "automatic-ref-counting");
   ("object", "object");
   ("object orientation, oo, ood, object oriented modeling, oo design, oops, object oriented design, object oriented", "oop");
   ("object pascal", "delphi");
   ("object relational mapping", "orm");
   ("objective c", "objective-c");
   ("objects", "object");
   ("observable", "observable");
   ("ocaml", "ocaml");
   ("ocr", "ocr");
   ("octave", "octave");
   ("odata", "odata");
   ("odbc", "odbc");
   ("odoo", "odoo");
   ("office interop", "office-interop");
   ("office js", "office-js");
   ("office365", "office365");
   ("oledb", "oledb");
   ("omp", "openmp");
   ("onclick", "onclick");
   ("onclicklistener", "onclicklistener");
   ("one to many", "one-to-many");
   ("oop", "oop");
   ("ooxml", "openxml");
   ("open source", "open-source");
   ("opencart", "opencart");
   ("opencl", "opencl");
   ("opencv", "opencv");
   ("openerp", "odoo");
   ("opengl", "opengl");
   ("opengl es", "opengl-es");
   ("opengl es 2.0", "opengl-es-2.0");
   ("opengles", "opengl-es");
   ("opengraph, open graph protocol", "facebook-opengraph");
   ("openid", "openid");
   ("openlayers", "openlayers");
   ("openmp", "openmp");
   ("openpyxl", "openpyxl");
   ("openshift", "openshift");
   ("openssl", "openssl");
   ("openstreetmap", "openstreetmap");
   ("openxml", "openxml");
   ("operating system", "operating-system");
   ("operator overloading", "operator-overloading");
   ("operators", "operators");
   ("opscode", "chef");
   ("optimization", "optimization");
   ("optimizer, optimize, optimisation, code optimization, optimizing, optimizations", "optimization");
   ("optionbutton, option button, radiobutton", "radio-button");
   ("oracle", "oracle");
   ("oracle apex", "oracle-apex");
   ("oracle sqldeveloper", "oracle-sqldeveloper");
   ("oracle10g", "oracle10g");
   ("oracle11g", "oracle11g");
   ("oracle12c", "oracle12c");
   ("oraclejdk, javax, openjdk, java se, .java, j2se, core java, java libraries, jdk, jre", "java");
   ("orchard", "orchardcms");
   ("orchardcms", "orchardcms");
   ("order by, orderby", "sql-order-by");
   ("orientation", "orientation");
   ("orm", "orm");
   ("os, operating systems", "operating-system");
   ("osgi", "osgi");
   ("osm", "openstreetmap");
   ("oss, open source contribution, open source projects", "open-source");
   ("osx, macosx, mac", "macos");
   ("out of memory", "out-of-memory");
   ("outlook", "outlook");
   ("outlook addin", "outlook-addin");
   ("outlook vba", "outlook-vba");
   ("outofmemoryexception, outofmemoryerror", "out-of-memory");
   ("output", "output");
   ("overflow", "overflow");
   ("overlay", "overlay");
   ("overlays", "overlay");
   ("overloading", "overloading");
   ("overriding", "overriding");
   ("owin", "owin");
   ("package", "package");
   ("packages", "package");
   ("padding", "padding");
   ("pagination", "pagination");
   ("pandas", "pandas");
   ("pandas groupby", "pandas-groupby");
   ("panel", "panel");
   ("panels", "panel");
   ("paperclip", "paperclip");
   ("parallel computing, parallel, parallelization, parallelism, parallel programming", "parallel-processing");
   ("parallel processing", "parallel-processing");
   ("parameter passing", "parameter-passing");
   ("parameter, params, param", "parameters");
   ("parameters", "parameters");
   ("parent child", "parent-child");
   ("parse platform", "parse-platform");
   ("parser, parsers, parse", "parsing");
   ("parsing", "parsing");
   ("pass by reference", "pass-by-reference");
   ("passenger", "passenger");
   ("passing by reference, call by reference", "pass-by-reference");
   ("passport.js", "passport.js");
   ("passportjs", "passport.js");
   ("password", "passwords");
   ("passwords", "passwords");
   ("path", "path");
   ("paths", "path");
   ("pattern matching", "pattern-matching");
   ("patterns, pattern, design pattern, gof, gang of four", "design-patterns");
   ("payment gateway", "payment-gateway");
   ("paypal", "paypal");
   ("paypal api, paypal express, paypal checkout, paypal sdk, paypalmerchantsdk", "paypal");
   ("paypal sandbox", "paypal-sandbox");
   ("pdf", "pdf");
   ("pdf generation", "pdf-generation");
   ("pdo", "pdo");
   ("pentaho", "pentaho");
   ("performance", "performance");
   ("performance testing", "performance-testing");
   ("perl", "perl");
   ("perl5", "perl");
   ("permission", "permissions");
   ("permissions", "permissions");
   ("permutation", "permutation");
   ("permutations", "permutation");
   ("persistence", "persistence");
   ("pgsql, postgres, sql postgres", "postgresql");
   ("phantomjs", "phantomjs");
   ("phoenix framework", "phoenix-framework");
   ("phonegap plugins", "phonegap-plugins");
   ("php", "php");
   ("php mysqli", "mysqli");
   ("php namespaces, phtml, php include, php oop, php errors, php cli, hypertext preprocessor, php.ini, php frameworks, php5, php date, php fpm, php session, php cgi, php mail, php functions, php readfile", "php");
   ("php references, references", "reference");
   ("phpdoctrine", "doctrine");
   ("phpexcel", "phpexcel");
   ("phpmailer", "phpmailer");
   ("phpmyadmin", "phpmyadmin");
   ("phpstorm", "phpstorm");
   ("phpunit", "phpunit");
   ("phusion passenger", "passenger");
   ("pickle", "pickle");
   ("pickle dump, cpickle, unpickling", "pickle");
   ("picture, pictures, img, images", "image");
   ("piglatin, pig", "apache-pig");
   ("pil, python pil, pillow", "python-imaging-library");
   ("pinvoke", "pinvoke");
   ("pip", "pip");
   ("pip3", "pip");
   ("pipe", "pipe");
   ("piping, pipes", "pipe");
   ("pivot", "pivot");
   ("pivot table", "pivot-table");
   ("play mvc", "playframework");
   ("playframework", "playframework");
   ("playframework 2.0", "playframework-2.0");
   ("playframework 2.x", "playframework-2.0");
   ("plist", "plist");
   ("plot", "plot");
   ("plotly", "plotly");
   ("plotting", "plot");
   ("plpgsql", "plpgsql");
   ("plsql", "plsql");
   ("plt, pylab, pyplot", "matplotlib");
   ("plugin", "plugins");
   ("plugins", "plugins");
   ("png", "png");
   ("poi", "apache-poi");
   ("pointer to function", "function-pointers");
   ("pointer, ptr", "pointers");
   ("pointers", "pointers");
   ("polygon", "polygon");
   ("polygons", "polygon");
   ("polymer", "polymer");
   ("polymorphic", "polymorphism");
   ("polymorphism", "polymorphism");
   ("pom", "pom.xml");
   ("pom.xml", "pom.xml");
   ("pop up", "popup");
   ("popup", "popup");
   ("port", "port");
   ("ports", "port");
   ("position", "position");
   ("posix", "posix");
   ("post", "post");
   ("post request", "http-post");
   ("postgis", "postgis");
   ("postgresql", "postgresql");
   ("postman", "postman");
   ("powerbi", "powerbi");
   ("powerpoint", "powerpoint");
   ("powershell", "powershell");
   ("powershell 2.0", "powershell-2.0");
   ("precision", "precision");
   ("preg match", "preg-match");
   ("preg replace", "preg-replace");
   ("prepare, prepared statements", "prepared-statement");
   ("prepared statement", "prepared-statement");
   ("prestashop", "prestashop");
   ("primary key", "primary-key");
   ("primary keys", "primary-key");
   ("primefaces", "primefaces");
   ("printer, print", "printing");
   ("printf", "printf");
   ("printing", "printing");
   ("prism", "prism");
   ("prng, rng, random sample, random number generator, pseudo random numbers, random generator, random numbers, random number, rand, random alpha generator, random string, random string generator", "random");
   ("probability", "probability");
   ("process", "process");
   ("processes", "process");
   ("processing", "processing");
   ("processing.org", "processing");
   ("product", "product");
   ("products", "product");
   ("profiling", "profiling");
   ("profiling tools", "profiling");
   ("programming languages", "programming-languages");
   ("progress bar", "progress-bar");
   ("progressive web apps", "progressive-web-apps");
   ("proguard", "proguard");
   ("project", "project");
   ("projects", "project");
   ("prolog", "prolog");
   ("promise", "promise");
   ("properties", "properties");
   ("property", "properties");
   ("protocol", "protocols");
   ("protocol buffers", "protocol-buffers");
   ("protocols", "protocols");
   ("prototype", "prototype");
   ("prototypes", "prototype");
   ("protractor", "protractor");
   ("proxy", "proxy");
   ("pthread", "pthreads");
   ("pthreads", "pthreads");
   ("pug", "pug");
   ("pugjs, jade", "pug");
   ("puppet", "puppet");
   ("puppeteer", "puppeteer");
   ("push", "push");
   ("push notification", "push-notification");
   ("push notifications", "push-notification");
   ("pwa", "progressive-web-apps");
   ("py, pythonic, python interpreter, python shell", "python");
   ("py.test", "pytest");
   ("py3, python 3, py3k, python3k, python3", "python-3.x");
   ("pycharm", "pycharm");
   ("pygame", "pygame");
   ("pyinstaller", "pyinstaller");
   ("pymongo", "pymongo");
   ("pyqt", "pyqt");
   ("pyqt4", "pyqt4");
   ("pyqt5", "pyqt5");
   ("pyside", "pyside");
   ("pyspark", "pyspark");
   ("pytest", "pytest");
   ("python", "python");
   ("python 2.7", "python-2.7");
   ("python 3.5", "python-3.5");
   ("python 3.5.2", "python-3.5");
   ("python 3.6", "python-3.6");
   ("python 3.7", "python-3.7");
   ("python 3.x", "python-3.x");
   ("python asyncio", "python-asyncio");
   ("python ctypes", "ctypes");
   ("python imaging library", "python-imaging-library");
   ("python import", "python-import");
   ("python multiprocessing", "python-multiprocessing");
   ("python requests", "python-requests");
   ("python subprocess module, subprocesses", "subprocess");
   ("pytorch", "pytorch");
   ("qml", "qml");
   ("qplot, ggplot", "ggplot2");
   ("qr code", "qr-code");
   ("qt", "qt");
   ("qt creator", "qt-creator");
   ("qt4", "qt4");
   ("qt5", "qt5");
   ("quartz graphics", "core-graphics");
   ("quartz scheduler", "quartz-scheduler");
   ("query optimization", "query-optimization");
   ("query string", "query-string");
   ("queue", "queue");
   ("r", "r");
   ("r markdown", "r-markdown");
   ("rabbitmq", "rabbitmq");
   ("racket", "racket");
   ("radio button", "radio-button");
   ("rails activerecord", "rails-activerecord");
   ("rails3, ror3", "ruby-on-rails-3");
   ("rails5", "ruby-on-rails-5");
   ("rake", "rake");
   ("random", "random");
   ("range", "range");
   ("ranges", "range");
   ("raphael", "raphael");
   ("raphael js", "raphael");
   ("raspberry pi", "raspberry-pi");
   ("raspberry pi3", "raspberry-pi3");
   ("razor", "razor");
   ("rbindlist", "data.table");
   ("rdd", "rdd");
   ("rdf", "rdf");
   ("react hooks", "react-hooks");
   ("react native", "react-native");
   ("react native android", "react-native-android");
   ("react navigation", "react-navigation");
   ("react redux", "react-redux");
   ("react router", "react-router");
   ("react, react jsx", "reactjs");
   ("reactive programming", "reactive-programming");
   ("reactjs", "reactjs");
   ("real time", "real-time");
   ("realm", "realm");
   ("realm.io, realm net, android realm, realmswift, realm cocoa", "realm");
   ("recaptcha", "recaptcha");
   ("recursion", "recursion");
   ("recursive", "recursion");
   ("recyclerview layout, recyclerview", "android-recyclerview");
   ("redhat", "redhat");
   ("redirect", "redirect");
   ("redis", "redis");
   ("redux", "redux");
   ("refactor", "refactoring");
   ("refactoring", "refactoring");
   ("reference", "reference");
   ("reflection", "reflection");
   ("refresh", "refresh");
   ("regex", "regex");
   ("regexes, regexp, regular expression, regular expressions, regex php, perlre, perl regex, apache regexp, regularexpression", "regex");
   ("registry", "registry");
   ("regression", "regression");
   ("relational database", "relational-database");
   ("relationship", "relationship");
   ("relationships", "relationship");
   ("rename", "rename");
   ("renaming", "rename");
   ("render", "render");
   ("rendering", "rendering");
   ("replace", "replace");
   ("replacement, search and replace, find and replace, text replacement, string replacement", "replace");
   ("replication", "replication");
   ("report", "report");
   ("reporting", "reporting");
   ("reporting services", "reporting-services");
   ("reportingservices 2008", "ssrs-2008");
   ("reports", "report");
   ("repositories", "repository");
   ("repository", "repository");
   ("repository pattern", "repository-pattern");
   ("request", "request");
   ("requests", "python-requests");
   ("require.js", "requirejs");
   ("requirejs", "requirejs");
   ("resharper", "resharper");
   ("resize", "resize");
   ("resizing", "resize");
   ("resource", "resources");
   ("resources", "resources");
   ("response", "response");
   ("responsive", "responsive");
   ("responsive design", "responsive-design");
   ("rest", "rest");
   ("restful web services, restful, restful architecture, rest api", "rest");
   ("retrofit", "retrofit");
   ("retrofit2", "retrofit2");
   ("return", "return");
   ("return statement", "return");
   ("return value", "return-value");
   ("reverse engineering", "reverse-engineering");
   ("reverse proxy", "reverse-proxy");
   ("rewrite url, urlrewrite, urlrewriter, rewrite", "url-rewriting");
   ("rewritemap, rewriteengine, rewritecond, rewriterule, rewritebase", "mod-rewrite");
   ("richfaces", "richfaces");
   ("richtextbox", "richtextbox");
   ("rmarkdown", "r-markdown");
   ("robotframework", "robotframework");
   ("ror, rails", "ruby-on-rails");
   ("rotating, rotate", "rotation");
   ("rotation", "rotation");
   ("round, number rounding", "rounding");
   ("rounding", "rounding");
   ("routes", "routes");
   ("routing", "routing");
   ("row", "row");
   ("rows", "rows");
   ("rs232", "serial-port");
   ("rsa", "rsa");
   ("rspec", "rspec");
   ("rss", "rss");
   ("rssfeed", "rss");
   ("rstats, r language", "r");
   ("rstudio", "rstudio");
   ("ruby", "ruby");
   ("ruby on rails", "ruby-on-rails");
   ("ruby on rails 3", "ruby-on-rails-3");
   ("ruby on rails 3.1", "ruby-on-rails-3.1");
   ("ruby on rails 3.2", "ruby-on-rails-3.2");
   ("ruby on rails 3.2.1", "ruby-on-rails-3.2");
   ("ruby on rails 4", "ruby-on-rails-4");
   ("ruby on rails 5", "ruby-on-rails-5");
   ("ruby on rails gems, gem, gems", "rubygems");
   ("rubygems", "rubygems");
   ("runtime", "runtime");
   ("runtime error", "runtime-error");
   ("rust", "rust");
   ("rvm", "rvm");
   ("rx java", "rx-java");
   ("rx java2", "rx-java2");
   ("rxjs", "rxjs");
   ("s3 bucket, s3, aws s3", "amazon-s3");
   ("safari", "safari");
   ("safari bug", "safari");
   ("sails.js", "sails.js");
   ("sailsjs, sails", "sails.js");
   ("salesforce", "salesforce");
   ("salesforce.com", "salesforce");
   ("sap", "sap");
   ("sapui5", "sapui5");
   ("sas", "sas");
   ("sass", "sass");
   ("save", "save");
   ("saving", "save");
   ("sbt", "sbt");
   ("scala", "scala");
   ("scalar udf, table udf, scalar function, scalar valued functions, table valued functions, udf, table valued function, table value function, table value functions", "user-defined-functions");
   ("scale", "scale");
   ("scanf", "scanf");
   ("scenekit", "scenekit");
   ("scheduled tasks", "scheduled-tasks");
   ("schema", "schema");
   ("schemas", "schema");
   ("scheme", "scheme");
   ("scikit learn", "scikit-learn");
   ("scikits learn, sklearn", "scikit-learn");
   ("scipy", "scipy");
   ("scope", "scope");
   ("scraping", "screen-scraping");
   ("scrapy", "scrapy");
   ("scrapy spider", "scrapy");
   ("screen", "screen");
   ("screen scraping", "screen-scraping");
   ("screens", "screen");
   ("screenshot", "screenshot");
   ("scripting", "scripting");
   ("scripts", "scripting");
   ("scroll", "scroll");
   ("scrollbar", "scrollbar");
   ("scrolling", "scroll");
   ("scrollview", "scrollview");
   ("scss", "sass");
   ("sdk", "sdk");
   ("sdl", "sdl");
   ("seaborn", "seaborn");
   ("search", "search");
   ("searching", "search");
   ("secure, vulnerability, vulnerabilities, web security", "security");
   ("security", "security");
   ("sed", "sed");
   ("segmentation fault", "segmentation-fault");
   ("segue", "segue");
   ("select", "select");
   ("select query", "select");
   ("select statement, sqlselect, sql select, sql syntax, sql query, sql statement", "sql");
   ("select2", "jquery-select2");
   ("selection", "selection");
   ("selector", "selector");
   ("selenium", "selenium");
   ("selenium chromedriver", "selenium-chromedriver");
   ("selenium webdriver", "selenium-webdriver");
   ("selenium2, selenium webdriver c#, selenium webdriver java, webdriverjs", "selenium-webdriver");
   ("sencha touch", "sencha-touch");
   ("sencha touch 2", "sencha-touch-2");
   ("seo", "seo");
   ("seo friendly", "seo");
   ("sequelize", "sequelize.js");
   ("sequelize.js", "sequelize.js");
   ("sequence", "sequence");
   ("sequences", "sequence");
   ("serial port", "serial-port");
   ("serialization", "serialization");
   ("serialze, serialisation, serializing, serialized, unserialize, deserialize, serialize", "serialization");
   ("server", "server");
   ("server client", "client-server");
   ("service", "service");
   ("service worker", "service-worker");
   ("services", "service");
   ("servicestack", "servicestack");
   ("servlet, httpservletresponse, httpservletrequest, servletcontext, webservlet", "servlets");
   ("servlets", "servlets");
   ("session", "session");
   ("session cookie", "session-cookies");
   ("session cookies", "session-cookies");
   ("session variables", "session-variables");
   ("sessions", "session");
   ("set", "set");
   ("setinterval", "setinterval");
   ("sets", "set");
   ("settimeout", "settimeout");
   ("setting, user settings, usersettings", "settings");
   ("settings", "settings");
   ("setup, installing", "installation");
   ("sftp", "sftp");
   ("sh", "sh");
   ("shader", "shader");
   ("shaders", "shader");
   ("share", "share");
   ("shared libraries", "shared-libraries");
   ("shared library, so", "shared-libraries");
   ("sharedpreferences", "sharedpreferences");
   ("sharepoint", "sharepoint");
   ("sharepoint 2007", "sharepoint-2007");
   ("sharepoint 2010", "sharepoint-2010");
   ("sharepoint 2013", "sharepoint-2013");
   ("shell", "shell");
   ("shell scripting, shell command, shell commands, shell script, shellscript", "shell");
   ("shiny", "shiny");
   ("shopify", "shopify");
   ("shortcut key", "keyboard-shortcuts");
   ("signal", "signals");
   ("signal processing", "signal-processing");
   ("signalr", "signalr");
   ("signals", "signals");
   ("sigsegv, segfault", "segmentation-fault");
   ("silverlight", "silverlight");
   ("silverlight 4", "silverlight-4.0");
   ("silverlight 4.0", "silverlight-4.0");
   ("simple build tool", "sbt");
   ("simplexml", "simplexml");
   ("simplexmlelement, simplexml load string", "simplexml");
   ("simulation", "simulation");
   ("sinatra", "sinatra");
   ("single page application", "single-page-application");
   ("single sign on", "single-sign-on");
   ("singleton", "singleton");
   ("singleton class, singleton methods, application singleton", "singleton");
   ("sitecore", "sitecore");
   ("size", "size");
   ("slice", "slice");
   ("slicing, slices, array slice, string slice", "slice");
   ("slider", "slider");
   ("sliders", "slider");
   ("slideshow", "slideshow");
   ("smarty", "smarty");
   ("sms", "sms");
   ("smtp", "smtp");
   ("soap", "soap");
   ("soapui", "soapui");
   ("socket.io", "socket.io");
   ("socketio", "socket.io");
   ("sockets", "sockets");
   ("software testing, tests, test", "testing");
   ("solr", "solr");
   ("sonar", "sonarqube");
   ("sonarqube", "sonarqube");
   ("sortable, jquery sortable", "jquery-ui-sortable");
   ("sorting", "sorting");
   ("sorting algorithm, array sorting, sort, sorted, date sorting", "sorting");
   ("sound, sounds, sound api", "audio");
   ("source code control, vcs, scc, sccs, source control, revision control, scm, source code management", "version-control");
   ("spa", "single-page-application");
   ("spark cluster framework, spark", "apache-spark");
   ("spark dataframe, spark sql", "apache-spark-sql");
   ("spark streaming", "spark-streaming");
   ("sparql", "sparql");
   ("sparse columns, sparse, sparse array", "sparse-matrix");
   ("sparse matrix", "sparse-matrix");
   ("special characters", "special-characters");
   ("speech recognition", "speech-recognition");
   ("spinner", "spinner");
   ("split", "split");
   ("spring", "spring");
   ("spring batch", "spring-batch");
   ("spring boot", "spring-boot");
   ("spring cloud", "spring-cloud");
   ("spring data", "spring-data");
   ("spring data jpa", "spring-data-jpa");
   ("spring framework, spring java config, spring config", "spring");
   ("spring integration", "spring-integration");
   ("spring jpa", "spring-data-jpa");
   ("spring mvc", "spring-mvc");
   ("spring security", "spring-security");
   ("spring web", "spring-mvc");
   ("sprintf, fprintf, snprintf, vsprintf, vsnprintf, vswprintf", "printf");
   ("sprite", "sprite");
   ("sprite kit", "sprite-kit");
   ("sprites", "sprite");
   ("spyder", "spyder");
   ("sql", "sql");
   ("sql azure", "azure-sql-database");
   ("sql developer", "oracle-sqldeveloper");
   ("sql injection", "sql-injection");
   ("sql insert", "sql-insert");
   ("sql join, joins, jointable", "join");
   ("sql management studio, management studio, sqlservermanagementstudio", "ssms");
   ("sql order by", "sql-order-by");
   ("sql server", "sql-server");
   ("sql server 2005", "sql-server-2005");
   ("sql server 2008", "sql-server-2008");
   ("sql server 2008 r2", "sql-server-2008-r2");
   ("sql server 2012", "sql-server-2012");
   ("sql server 2014", "sql-server-2014");
   ("sql server 2016", "sql-server-2016");
   ("sql server ce", "sql-server-ce");
   ("sql to linq, linq2sql", "linq-to-sql");
   ("sql triggers, trigger", "triggers");
   ("sql update", "sql-update");
   ("sql2008, mssql2008, ssms 2008", "sql-server-2008");
   ("sql2008r2", "sql-server-2008-r2");
   ("sql2016", "sql-server-2016");
   ("sqlalchemy", "sqlalchemy");
   ("sqlite", "sqlite");
   ("sqlite3, sqllite, sqlitedatabase", "sqlite");
   ("ssas", "ssas");
   ("sscanf, fscanf", "scanf");
   ("ssh", "ssh");
   ("ssis", "ssis");
   ("ssis development, integration services, ssis data transformations, dtsx", "ssis");
   ("ssl", "ssl");
   ("ssl certificate", "ssl-certificate");
   ("ssms", "ssms");
   ("sso", "single-sign-on");
   ("ssrs 2008", "ssrs-2008");
   ("ssrs 2012", "ssrs-2012");
   ("ssrs, reporting service, sql reporting services, msrs, ssrs reports", "reporting-services");
   ("stack", "stack");
   ("stack overflow", "stack-overflow");
   ("stackoverflowexception, stackoverflowerror", "stack-overflow");
   ("stacks", "stack");
   ("standard", "standards");
   ("standards", "standards");
   ("stanford nlp", "stanford-nlp");
   ("stanford parser, corenlp server, stanford nlp server, corenlp", "stanford-nlp");
   ("stata", "stata");
   ("state", "state");
   ("states", "state");
   ("static", "static");
   ("static libraries", "static-libraries");
   ("static library", "static-libraries");
   ("static vs non static", "static");
   ("statistical analysis, stats", "statistics");
   ("statistics", "statistics");
   ("std", "std");
   ("stdin", "stdin");
   ("stdlib", "std");
   ("stdout", "stdout");
   ("stl", "stl");
   ("stl containers", "stl");
   ("storage", "storage");
   ("stored procedure, sproc", "stored-procedures");
   ("stored procedures", "stored-procedures");
   ("storing", "storage");
   ("storyboard", "storyboard");
   ("stream", "stream");
   ("streaming", "streaming");
   ("streams", "stream");
   ("string", "string");
   ("string formatting", "string-formatting");
   ("string manipulation, str, strings, empty string", "string");
   ("string split, splitting", "split");
   ("stringformat", "string-formatting");
   ("stripe payments", "stripe-payments");
   ("stripe.js, stripe connect, stripe.net", "stripe-payments");
   ("struct", "struct");
   ("structs", "struct");
   ("structure", "structure");
   ("structures", "structure");
   ("struts", "struts");
   ("struts 2", "struts2");
   ("struts2", "struts2");
   ("style", "styles");
   ("styles", "styles");
   ("subclass", "subclass");
   ("subclasses", "subclass");
   ("subdomain", "subdomain");
   ("subdomains", "subdomain");
   ("sublimetext", "sublimetext");
   ("sublimetext2", "sublimetext2");
   ("sublimetext3", "sublimetext3");
   ("submit", "submit");
   ("subprocess", "subprocess");
   ("subqueries, subselect", "subquery");
   ("subquery", "subquery");
   ("subset", "subset");
   ("subsetting", "subset");
   ("substring", "substring");
   ("substrings", "substring");
   ("subversion", "svn");
   ("sum", "sum");
   ("support vector machines", "svm");
   ("svg", "svg");
   ("svg path, svgz", "svg");
   ("svm", "svm");
   ("svn", "svn");
   ("swagger", "swagger");
   ("swift", "swift");
   ("swift1.2, swift language, swift ios", "swift");
   ("swift2", "swift2");
   ("swift2.0, swift2.2.1, swift2.2, swift2.1", "swift2");
   ("swift3", "swift3");
   ("swift3.0, swift3.0.1, swift3.0.2, swift3.1", "swift3");
   ("swift4", "swift4");
   ("swiftui", "swiftui");
   ("swing", "swing");
   ("switch statement", "switch-statement");
   ("switch, switch case", "switch-statement");
   ("swt", "swt");
   ("swtoolkit", "swt");
   ("sybase", "sybase");
   ("symbol", "symbols");
   ("symbols", "symbols");
   ("symfony", "symfony");
   ("symfony1", "symfony1");
   ("symfony3, symfony2", "symfony");
   ("symfony4", "symfony4");
   ("sympy", "sympy");
   ("sync", "synchronization");
   ("synchronization", "synchronization");
   ("syntax", "syntax");
   ("syntax error", "syntax-error");
   ("syntax highlighting", "syntax-highlighting");
   ("system", "system");
   ("system architecture, solution architecture, software architecture, application architecture", "architecture");
   ("system.reactive", "system.reactive");
   ("systems", "system");
   ("t9n", "translation");
   ("tab", "tabs");
   ("tableau", "tableau");
   ("tableview", "tableview");
   ("tabs", "tabs");
   ("tag", "tags");
   ("tags", "tags");
   ("task", "task");
   ("task parallel library", "task-parallel-library");
   ("task scheduling, task scheduler", "scheduled-tasks");
   ("tasks", "task");
   ("tcl", "tcl");
   ("tcp", "tcp");
   ("tcpip, tcp ip", "tcp");
   ("td, rowspan, colspan", "html-table");
   ("tdd", "tdd");
   ("team foundation server, team foundation", "tfs");
   ("teamcity", "teamcity");
   ("telerik", "telerik");
   ("template", "templates");
   ("templates", "templates");
   ("tensorflow", "tensorflow");
   ("tensorflow gpu", "tensorflow");
   ("teradata", "teradata");
   ("terminal", "terminal");
   ("terminals", "terminal");
   ("terraform", "terraform");
   ("tesseract", "tesseract");
   ("testacular, karma", "karma-runner");
   ("testdrivendesign, test driven, testdrivendevelopment", "tdd");
   ("testing", "testing");
   ("testng", "testng");
   ("text", "text");
   ("text file", "text-files");
   ("text files", "text-files");
   ("text messages, text message, short message service", "sms");
   ("textarea", "textarea");
   ("textbox", "textbox");
   ("textboxes", "textbox");
   ("textfield", "textfield");
   ("texture", "textures");
   ("textures", "textures");
   ("textview", "textview");
   ("tfs", "tfs");
   ("theme", "themes");
   ("themes", "themes");
   ("thread safety", "thread-safety");
   ("threadpool", "threadpool");
   ("threadsafe, thread safe", "thread-safety");
   ("three.js", "three.js");
   ("thumbnails", "thumbnails");
   ("thymeleaf", "thymeleaf");
   ("tidyverse", "tidyverse");
   ("time", "time");
   ("time complexity", "time-complexity");
   ("time series", "time-series");
   ("time tag, html5, webpage, html comments, div, divs, nested divs, div layouts, span, html attributes, html tag", "html");
   ("timeout", "timeout");
   ("timer", "timer");
   ("timers", "timer");
   ("timestamp", "timestamp");
   ("timestamps", "timestamp");
   ("timezone", "timezone");
   ("timezones, timezoneinfo", "timezone");
   ("tinymce", "tinymce");
   ("titanium", "titanium");
   ("tkinter", "tkinter");
   ("tls", "ssl");
   ("toggle", "toggle");
   ("token", "token");
   ("tokens", "token");
   ("tomcat", "tomcat");
   ("tomcat7", "tomcat7");
   ("toolbar", "toolbar");
   ("toolbars", "toolbar");
   ("tooltip", "tooltip");
   ("tooltips", "tooltip");
   ("tornado", "tornado");
   ("tortoisesvn", "tortoisesvn");
   ("touch", "touch");
   ("tpl", "task-parallel-library");
   ("transact sql", "tsql");
   ("transaction, transactional", "transactions");
   ("transactions", "transactions");
   ("transform", "transform");
   ("transition", "transition");
   ("transitions", "transition");
   ("translation", "translation");
   ("transparency", "transparency");
   ("travis", "travis-ci");
   ("travis ci", "travis-ci");
   ("tree", "tree");
   ("trees", "tree");
   ("treeview", "treeview");
   ("triggers", "triggers");
   ("try catch", "try-catch");
   ("try statement, try catch throw, try, catch", "try-catch");
   ("tsql", "tsql");
   ("tsvn, tortoise", "tortoisesvn");
   ("tuple", "tuples");
   ("tuples", "tuples");
   ("twig", "twig");
   ("twilio", "twilio");
   ("twisted", "twisted");
   ("twitter", "twitter");
   ("twitter bootstrap", "twitter-bootstrap");
   ("twitter bootstrap 3", "twitter-bootstrap-3");
   ("twitter bootstrap 3.0, twitter bootstrap 3.0.2", "twitter-bootstrap-3");
   ("twitter bootstrap 4", "bootstrap-4");
   ("twitter rest api, twitter api", "twitter");
   ("type casting, cast, typecast", "casting");
   ("type conversion", "type-conversion");
   ("typeconverting, data type conversion", "type-conversion");
   ("typeerror", "typeerror");
   ("types", "types");
   ("typescript", "typescript");
   ("typo3", "typo3");
   ("ubuntu", "ubuntu");
   ("ubuntu 14.04", "ubuntu-14.04");
   ("ubuntu 16.04", "ubuntu-16.04");
   ("udp", "udp");
   ("ui router, angularjs ui router", "angular-ui-router");
   ("ui, gui", "user-interface");
   ("ui5, sapui, openui5", "sapui5");
   ("uibutton", "uibutton");
   ("uicollectionview", "uicollectionview");
   ("uicollectionviewcell", "uicollectionviewcell");
   ("uigesturerecognizer", "uigesturerecognizer");
   ("uiimage", "uiimage");
   ("uiimagepickercontroller", "uiimagepickercontroller");
   ("uiimageview", "uiimageview");
   ("uikit", "uikit");
   ("uilabel", "uilabel");
   ("uimapview", "mkmapview");
   ("uinavigation", "uinavigationcontroller");
   ("uinavigationbar", "uinavigationbar");
   ("uinavigationcontroller", "uinavigationcontroller");
   ("uipickerview", "uipickerview");
   ("uiscrollview", "uiscrollview");
   ("uisearchbar", "uisearchbar");
   ("uitabbarcontroller", "uitabbarcontroller");
   ("uitableview", "uitableview");
   ("uitableviewcell, uitableviewcellaccessory, uitableviewcellstylevalue, uitableviewstyle, uitableviewdatasource, uitableviewdelegate, uitableviewheader, uitableviewfooter, uitableview section, uitableviewstylegrouped, uitableviewcontroller, uitable, uitableviewcelll, tableviewcell", "uitableview");
   ("uitextfield", "uitextfield");
   ("uitextview", "uitextview");
   ("uiview", "uiview");
   ("uiviewcontroller", "uiviewcontroller");
   ("uiwebview", "uiwebview");
   ("umbraco", "umbraco");
   ("uml", "uml");
   ("uml modeling, uml modelling", "uml");
   ("uncaught typeerror", "typeerror");
   ("undefined", "undefined");
   ("underscore", "underscore.js");
   ("underscore.js", "underscore.js");
   ("unicode", "unicode");
   ("union", "union");
   ("unique", "unique");
   ("uniqueness", "unique");
   ("unit test, unit tests, unittest", "unit-testing");
   ("unit testing", "unit-testing");
   ("unity container", "unity-container");
   ("unity game engine, unity2d, unity, unity5, unity5.3, unity3d 5", "unity3d");
   ("unity3d", "unity3d");
   ("unix", "unix");
   ("unix utils, unix programming", "unix");
   ("unordered list, ordered list, ul, li, ol", "html-lists");
   ("updatepanel", "updatepanel");
   ("updates", "updates");
   ("upgrade", "upgrade");
   ("upload", "upload");
   ("upload file, fileuploader, image uploading", "file-upload");
   ("uploads", "upload");
   ("uri", "uri");
   ("url", "url");
   ("url redirection, redirects, redirecting, redirection", "redirect");
   ("url rewriting", "url-rewriting");
   ("url routing", "url-routing");
   ("urllib", "urllib");
   ("urls", "url");
   ("us ascii", "ascii");
   ("usb", "usb");
   ("usbdevice", "usb");
   ("user control", "user-controls");
   ("user controls", "user-controls");
   ("user defined functions", "user-defined-functions");
   ("user input", "user-input");
   ("user interface", "user-interface");
   ("utf 8", "utf-8");
   ("utf8 decode", "utf-8");
   ("uwp", "uwp");
   ("vaadin", "vaadin");
   ("vagrant", "vagrant");
   ("valgrind", "valgrind");
   ("validating, validators, validate, validations, input validation, form validation, validator, data validation", "validation");
   ("validation", "validation");
   ("variable assignment", "variable-assignment");
   ("variable naming, casing conventions", "naming-conventions");
   ("variable scope", "scope");
   ("variable, vars", "variables");
   ("variables", "variables");
   ("variadic templates", "variadic-templates");
   ("vb classic", "vb6");
   ("vb, vbproj", "vb.net");
   ("vb.net", "vb.net");
   ("vb6", "vb6");
   ("vba", "vba");
   ("vbhtml, cshtml, asp.net razor pages, razor web pages, .cshtml", "razor");
   ("vbs", "vbscript");
   ("vbscript", "vbscript");
   ("vector", "vector");
   ("vectorization", "vectorization");
   ("vectorizing, vectorize", "vectorization");
   ("vectors", "vector");
   ("verilog", "verilog");
   ("version", "version");
   ("version control", "version-control");
   ("versions", "version");
   ("vhdl", "vhdl");
   ("video", "video");
   ("video streaming", "video-streaming");
   ("view", "view");
   ("viewmodel", "viewmodel");
   ("viewpager", "android-viewpager");
   ("views", "view");
   ("vim", "vim");
   ("viml, vimrc, vimscript, gvimrc, gvim", "vim");
   ("virtual machine", "virtual-machine");
   ("virtualbox", "virtualbox");
   ("virtualenv", "virtualenv");
   ("visual basic applications, vba macros, macros vba", "vba");
   ("visual c++", "visual-c++");
   ("visual studio", "visual-studio");
   ("visual studio 2005", "visual-studio-2005");
   ("visual studio 2008", "visual-studio-2008");
   ("visual studio 2010", "visual-studio-2010");
   ("visual studio 2012", "visual-studio-2012");
   ("visual studio 2013", "visual-studio-2013");
   ("visual studio 2015", "visual-studio-2015");
   ("visual studio 2015 comm, visual studio 2015 ce, vs 2015 preview, vs2015", "visual-studio-2015");
   ("visual studio 2017", "visual-studio-2017");
   ("visual studio 2019", "visual-studio-2019");
   ("visual studio code", "visual-studio-code");
   ("visualisation", "visualization");
   ("visualization", "visualization");
   ("vlookup", "vlookup");
   ("vm", "virtual-machine");
   ("volley", "android-volley");
   ("vs 2013 preview, vs2013, vs 2013 update 2, vs2013 update 4, vs 2013", "visual-studio-2013");
   ("vs team services, visual studio team services, visual studio online, vsts, tfs service, team foundation service, vso", "azure-devops");
   ("vs.net, msvs, visual studio community", "visual-studio");
   ("vs2005", "visual-studio-2005");
   ("vs2008", "visual-studio-2008");
   ("vs2010, visual studio 2010 rtm, msvc10, visual studio 2010 rc, visual studio 2010 beta 1, visual studio 2010 beta 2, visual studio 2010 sp1, vs2010 express", "visual-studio-2010");
   ("vs2017", "visual-studio-2017");
   ("vscode", "visual-studio-code");
   ("vso build, tfs vnext, vsts build", "azure-pipelines");
   ("vsto", "vsto");
   ("vue component", "vue-component");
   ("vue router", "vue-router");
   ("vue, vuejs, vue js", "vue.js");
   ("vue.js", "vue.js");
   ("vue2", "vuejs2");
   ("vuejs2", "vuejs2");
   ("vuetify", "vuetify.js");
   ("vuetify.js", "vuetify.js");
   ("vuex", "vuex");
   ("wait", "wait");
   ("wamp", "wamp");
   ("war", "war");
   ("warning", "warnings");
   ("warnings", "warnings");
   ("watchkit", "watchkit");
   ("wcf", "wcf");
   ("wcf service", "wcf");
   ("web", "web");
   ("web applications", "web-applications");
   ("web browser, browsers", "browser");
   ("web client", "webclient");
   ("web config", "web-config");
   ("web crawler", "web-crawler");
   ("web deployment", "web-deployment");
   ("web performance test, performance test", "performance-testing");
   ("web scraping", "web-scraping");
   ("web service", "web-services");
   ("web services", "web-services");
   ("web.config", "web-config");
   ("webapp, webapps, web application", "web-applications");
   ("webbrowser control", "webbrowser-control");
   ("webclient", "webclient");
   ("webcrawling, webspiders, web spider, crawler, crawling, crawl, spider", "web-crawler");
   ("webdriver", "webdriver");
   ("webforms", "webforms");
   ("webgl", "webgl");
   ("webkit", "webkit");
   ("weblogic", "weblogic");
   ("webpack", "webpack");
   ("webpagescraping, scraper", "web-scraping");
   ("webrtc", "webrtc");
   ("webserver", "webserver");
   ("website, websites, www", "web");
   ("websocket", "websocket");
   ("websockets", "websocket");
   ("websphere", "websphere");
   ("webstorm", "webstorm");
   ("webview", "webview");
   ("wget", "wget");
   ("where", "where-clause");
   ("where clause", "where-clause");
   ("while loop", "while-loop");
   ("while, while loops", "while-loop");
   ("whitespace", "whitespace");
   ("wicket", "wicket");
   ("widget", "widget");
   ("widgets", "widget");
   ("width", "width");
   ("wifi", "wifi");
   ("wifi configuration", "wifi");
   ("wildcard", "wildcard");
   ("wildcards", "wildcard");
   ("wildfly", "wildfly");
   ("win universal app", "win-universal-app");
   ("win32api, window api, windows api, win32, windows sdk", "winapi");
   ("win7, windows 7 api", "windows-7");
   ("winapi", "winapi");
   ("window", "window");
   ("windows", "windows");
   ("windows 10", "windows-10");
   ("windows 7", "windows-7");
   ("windows 8", "windows-8");
   ("windows 8 preview", "windows-8");
   ("windows 8.1", "windows-8.1");
   ("windows azure", "azure");
   ("windows azure blob", "azure-storage-blobs");
   ("windows azure storage", "azure-storage");
   ("windows installer", "windows-installer");
   ("windows mobile", "windows-mobile");
   ("windows phone", "windows-phone");
   ("windows phone 7", "windows-phone-7");
   ("windows phone 8", "windows-phone-8");
   ("windows phone 8.1", "windows-phone-8.1");
   ("windows powershell", "powershell");
   ("windows programming, windows application, windows applications", "windows");
   ("windows registry", "registry");
   ("windows runtime", "windows-runtime");
   ("windows service, winservice", "windows-services");
   ("windows services", "windows-services");
   ("windows store apps", "windows-store-apps");
   ("windows universal", "win-universal-app");
   ("windows xp", "windows-xp");
   ("windows.forms, window form, windows form, window forms, windows forms, winform", "winforms");
   ("winforms", "winforms");
   ("winmo", "windows-mobile");
   ("winrt", "windows-runtime");
   ("winrt xaml", "winrt-xaml");
   ("winxp, xp", "windows-xp");
   ("wix", "wix");
   ("wmi", "wmi");
   ("wolfram mathematica", "wolfram-mathematica");
   ("woocommerce", "woocommerce");
   ("word vba", "word-vba");
   ("wordpress", "wordpress");
   ("wordpress plugin dev, wordpress filter, wordpress widget, wp query, wordpress mu, wordpress theme customize, wordpress plugin, wpdb, wordpress loop, wordpress permission", "wordpress");
   ("wordpress themes", "wordpress-theming");
   ("wordpress theming", "wordpress-theming");
   ("workbook, ms excel", "excel");
   ("workflow", "workflow");
   ("wp7, windows phone 7.5", "windows-phone-7");
   ("wp8", "windows-phone-8");
   ("wpf", "wpf");
   ("wpf binding, databind", "data-binding");
   ("wpf controls", "wpf-controls");
   ("wpfdatagrid", "datagrid");
   ("wrapper", "wrapper");
   ("wrappers", "wrapper");
   ("wsdl", "wsdl");
   ("wso2", "wso2");
   ("wso2esb", "wso2esb");
   ("wx", "wxwidgets");
   ("wxpython", "wxpython");
   ("wxwidgets", "wxwidgets");
   ("x86", "x86");
   ("x86 64", "x86-64");
   ("xamarin", "xamarin");
   ("xamarin forms", "xamarin.forms");
   ("xamarin.android", "xamarin.android");
   ("xamarin.forms", "xamarin.forms");
   ("xamarin.ios", "xamarin.ios");
   ("xaml", "xaml");
   ("xammp", "xampp");
   ("xampp", "xampp");
   ("xcode", "xcode");
   ("xcode ide", "xcode");
   ("xcode4", "xcode4");
   ("xcode5", "xcode5");
   ("xcode6", "xcode6");
   ("xcode6 beta4, xcode6 beta3", "xcode6");
   ("xcode7", "xcode7");
   ("xcode8", "xcode8");
   ("xcode8.3.2, xcode8.3.3, xcode8.3, xcode8.1", "xcode8");
   ("xdocument, xlinq", "linq-to-xml");
   ("xhtml", "xhtml");
   ("xhtml5, valid xhtml", "xhtml");
   ("xml", "xml");
   ("xml file", "xml");
   ("xml parser", "xml-parsing");
   ("xml parsing", "xml-parsing");
   ("xml schema", "xsd");
   ("xml serialization", "xml-serialization");
   ("xml transform, xsl, xsltproc, xsltprocessor, xslt 2.0 processors, xsltransform", "xslt");
   ("xmlhttp, xhr", "xmlhttprequest");
   ("xmlhttprequest", "xmlhttprequest");
   ("xmpp", "xmpp");
   ("xna", "xna");
   ("xpages", "xpages");
   ("xpath", "xpath");
   ("xpath expression", "xpath");
   ("xquery", "xquery");
   ("xsd", "xsd");
   ("xslt", "xslt");
   ("xslt 1.0", "xslt-1.0");
   ("xslt 2.0", "xslt-2.0");
   ("xsrf, csrf protection", "csrf");
   ("xss", "xss");
   ("xubuntu, kubuntu, lubuntu", "ubuntu");
   ("yaml", "yaml");
   ("yarn", "yarn");
   ("yii", "yii");
   ("yii framework, yii db, php yii, yii mvc", "yii");
   ("yii2", "yii2");
   ("yml", "yaml");
   ("youtube", "youtube");
   ("youtube api", "youtube-api");
   ("youtube data api", "youtube-data-api");
   ("youtube v3 api, youtube data api v3, youtube api v3", "youtube-data-api");
   ("z index", "z-index");
   ("zend framework", "zend-framework");
   ("zend framework2", "zend-framework2");
   ("zf, zend", "zend-framework");
   ("zf2", "zend-framework2");
   ("zip", "zip");
   ("zookeeper", "apache-zookeeper");
   ("zoom", "zoom");
   ("zooming", "zoom");
   ("zsh", "zsh");
   ("zurb foundation", "zurb-foundation")].

