rocq/Makefile
rocq/Makefile.conf
rocq/.Makefile.d
*.vo
*.vos
*.vok
*.glob
*.aux
.lia.cache
.nia.cache
