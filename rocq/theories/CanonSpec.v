(** * CanonSpec: the canonical terms of Tags that Tags changes (C77). *)

From Verif Require Import Base.
Local Open Scope string_scope.

Definition Tags_altered : list string :=
  [".htaccess"; ".net"; ".net-3.5"; ".net-4.0"; ".net-4.5"; ".net-assembly"; ".net-core"; "advanced-custom-fields";
   "aggregate-functions"; "aggregation-framework"; "amazon-cloudformation"; "amazon-cloudfront"; "amazon-cognito";
   "amazon-dynamodb"; "amazon-ec2"; "amazon-elastic-beanstalk"; "amazon-redshift"; "amazon-s3";
   "amazon-web-services"; "android-actionbar"; "android-activity"; "android-alertdialog"; "android-arrayadapter";
   "android-asynctask"; "android-edittext"; "android-emulator"; "android-gradle-plugin"; "android-intent";
   "android-linearlayout"; "android-mediaplayer"; "android-ndk"; "android-recyclerview"; "android-viewpager";
   "android-volley"; "angular-cli"; "angular-ui-bootstrap"; "angular-ui-router"; "angular2-routing"; "apache-camel";
   "apache-flink"; "apache-kafka"; "apache-nifi"; "apache-pig"; "apache-poi"; "apache-spark"; "apache-spark-sql";
   "apache-zookeeper"; "asp.net-core-mvc"; "asp.net-mvc"; "asp.net-mvc-2"; "asp.net-mvc-3"; "asp.net-mvc-4";
   "asp.net-mvc-5"; "asp.net-mvc-routing"; "asset-pipeline"; "async-await"; "automated-tests"; "aws-api-gateway";
   "aws-lambda"; "aws-sdk"; "azure-functions"; "azure-storage-blobs"; "bar-chart"; "batch-file"; "batch-processing";
   "bootstrap-modal"; "c++-cli"; "cluster-analysis"; "cluster-computing"; "cocos2d-iphone"; "cocos2d-x";
   "code-coverage"; "coding-style"; "compact-framework"; "compiler-construction"; "compiler-errors";
   "complexity-theory"; "composer-php"; "conditional-statements"; "conv-neural-network"; "create-react-app";
   "cross-compiling"; "cross-domain"; "crystal-reports"; "css-animations"; "css-selectors"; "css-transitions";
   "d3.js"; "data-structures"; "dependency-injection"; "design-patterns"; "django-models"; "django-queryset";
   "django-rest-framework"; "django-views"; "domain-driven-design"; "eclipse-cdt"; "eclipse-plugin"; "ecmascript-6";
   "ef-code-first"; "ember-cli"; "ember-data"; "entity-framework"; "entity-framework-4"; "entity-framework-5";
   "entity-framework-6"; "entity-framework-core"; "es6-promise"; "event-handling"; "exchange-server"; "facebook-fql";
   "facebook-login"; "facebook-opengraph"; "firebase-realtime-database"; "font-awesome"; "font-face"; "for-loop";
   "foreign-keys"; "functional-programming"; "garbage-collection"; "gitlab-ci"; "gnu-make"; "google-bigquery";
   "google-chrome"; "google-chrome-devtools"; "google-chrome-extension"; "google-cloud-firestore";
   "google-cloud-functions"; "google-play-services"; "google-sheets"; "google-sheets-formula"; "google-tag-manager";
   "html-lists"; "html5-canvas"; "html5-video"; "http-headers"; "http-status-code-404"; "ibm-cloud";
   "ibm-mobilefirst"; "ibm-mq"; "if-statement"; "inno-setup"; "intellij-idea"; "inversion-of-control";
   "ionic-framework"; "jasper-reports"; "javascript-objects"; "jquery-animate"; "jquery-select2"; "jquery-selectors";
   "jquery-ui"; "jquery-ui-sortable"; "jquery-validate"; "karma-jasmine"; "karma-runner"; "kendo-grid"; "kendo-ui";
   "list-comprehension"; "material-ui"; "maven-plugin"; "microsoft-metro"; "mod-rewrite"; "modal-dialog";
   "multidimensional-array"; "multipartform-data"; "network-programming"; "neural-network"; "node-modules";
   "office-js"; "oracle-sqldeveloper"; "pandas-groupby"; "parallel-processing"; "parameter-passing";
   "parse-platform"; "pattern-matching"; "phoenix-framework"; "protocol-buffers"; "push-notification";
   "python-requests"; "rails-activerecord"; "react-hooks"; "react-native"; "react-native-android";
   "react-navigation"; "react-redux"; "react-router"; "reporting-services"; "repository-pattern"; "ruby-on-rails";
   "ruby-on-rails-3"; "ruby-on-rails-3.1"; "ruby-on-rails-3.2"; "ruby-on-rails-4"; "ruby-on-rails-5"; "rx-java";
   "rx-java2"; "scheduled-tasks"; "screen-scraping"; "selenium-chromedriver"; "sencha-touch"; "sencha-touch-2";
   "signal-processing"; "spark-streaming"; "sparse-matrix"; "special-characters"; "spring-batch"; "spring-mvc";
   "ssrs-2008"; "ssrs-2012"; "switch-statement"; "task-parallel-library"; "text-files"; "thread-safety";
   "time-complexity"; "travis-ci"; "try-catch"; "type-conversion"; "unity-container"; "user-defined-functions";
   "variable-assignment"; "version-control"; "vue-component"; "vue-router"; "web-crawler"; "web-scraping";
   "web-services"; "webbrowser-control"; "where-clause"; "while-loop"; "windows-services"; "windows-xp";
   "winrt-xaml"; "wolfram-mathematica"; "z-index"; "zend-framework"; "zend-framework2"].
